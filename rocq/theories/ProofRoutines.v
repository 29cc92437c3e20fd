(** Executing the programs of C88-C90 on the specification machine. *)
From Verif Require Import Base Arith ModelMap ModelRegs6502 ModelIsa6502 Spec6502 SpecProgram ProofProgram SpecRoutines.

Lemma word_halves a : word (low a) (high a) = a.
Proof. unfold word, low, high. lia. Qed.

Lemma pc_plus PC k : 0 <= PC -> 0 <= k -> PC + k <= 0xffff -> (PC + k) mod 65536 = PC + k.
Proof. intros. apply Z.mod_small. lia. Qed.

Section Instructions.
Variables (p : profile) (ram : Z -> Prop) (A X Y S PC : Z) (P : processor_status) (f : Z -> Z).
Notation R := (mkRegs A X Y S PC P).

Lemma i_memory a op mn v P' : 0 <= PC <= 0xfffc -> f PC = op -> f (PC + 1) = low a -> f (PC + 2) = high a -> ram a ->
  decode op = Some (mn, Absolute, 6%nat) ->
  execute p mn Absolute 6 R f (low a) (high a) = Some (mkEffect (mkRegs A X Y S ((PC + 3) mod 65536) P') [(a, v)] 6) ->
  exec p ram 1 6 R f (mkRegs A X Y S (PC + 3) P') (store1 f (a, v)).
Proof.
  intros H1 H2 H3 H4 Hr Hd He.
  eapply (exec_one p ram R f op mn Absolute 6 (mkEffect (mkRegs A X Y S (PC + 3) P') [(a, v)] 6)); try reflexivity.
  - cbn [rPC]. lia.
  - exact H2.
  - exact Hd.
  - cbn [rPC]. rewrite H3, H4, He. rewrite Z.mod_small by lia. reflexivity.
  - constructor; [exact Hr|constructor].
Qed.

Definition czn (P : processor_status) (c : bool) (v : Z) : processor_status := nzf (with_c P c) v.

Lemma i_asl a : 0 <= PC <= 0xfffc -> f PC = 0x0e -> f (PC + 1) = low a -> f (PC + 2) = high a -> ram a ->
  exec p ram 1 6 R f (mkRegs A X Y S (PC + 3) (czn P (128 <=? f a) ((2 * f a) mod 256))) (store1 f (a, (2 * f a) mod 256)).
Proof.
  intros H1 H2 H3 H4 Hr. apply (i_memory a 0x0e Asl); try assumption; [reflexivity|].
  unfold execute, modify_op, operand_address. rewrite word_halves. reflexivity.
Qed.
Lemma i_rol a : 0 <= PC <= 0xfffc -> f PC = 0x2e -> f (PC + 1) = low a -> f (PC + 2) = high a -> ram a ->
  let v := (2 * f a) mod 256 + bit (ps_carry P) 1 in
  exec p ram 1 6 R f (mkRegs A X Y S (PC + 3) (czn P (128 <=? f a) v)) (store1 f (a, v)).
Proof.
  intros H1 H2 H3 H4 Hr v. apply (i_memory a 0x2e Rol); try assumption; [reflexivity|].
  unfold execute, modify_op, operand_address. rewrite word_halves. reflexivity.
Qed.
Lemma i_lsr a : 0 <= PC <= 0xfffc -> f PC = 0x4e -> f (PC + 1) = low a -> f (PC + 2) = high a -> ram a ->
  exec p ram 1 6 R f (mkRegs A X Y S (PC + 3) (czn P (f a mod 2 =? 1) (f a / 2))) (store1 f (a, f a / 2)).
Proof.
  intros H1 H2 H3 H4 Hr. apply (i_memory a 0x4e Lsr); try assumption; [reflexivity|].
  unfold execute, modify_op, operand_address. rewrite word_halves. reflexivity.
Qed.
Lemma i_ror a : 0 <= PC <= 0xfffc -> f PC = 0x6e -> f (PC + 1) = low a -> f (PC + 2) = high a -> ram a ->
  let v := f a / 2 + bit (ps_carry P) 128 in
  exec p ram 1 6 R f (mkRegs A X Y S (PC + 3) (czn P (f a mod 2 =? 1) v)) (store1 f (a, v)).
Proof.
  intros H1 H2 H3 H4 Hr v. apply (i_memory a 0x6e Ror); try assumption; [reflexivity|].
  unfold execute, modify_op, operand_address. rewrite word_halves. reflexivity.
Qed.
Lemma i_inc a : 0 <= PC <= 0xfffc -> f PC = 0xee -> f (PC + 1) = low a -> f (PC + 2) = high a -> ram a ->
  exec p ram 1 6 R f (mkRegs A X Y S (PC + 3) (nzf P ((f a + 1) mod 256))) (store1 f (a, (f a + 1) mod 256)).
Proof.
  intros H1 H2 H3 H4 Hr. apply (i_memory a 0xee Inc); try assumption; [reflexivity|].
  unfold execute, modify_op, operand_address. rewrite word_halves. reflexivity.
Qed.

Lemma i_lda_imm v : 0 <= PC <= 0xfffd -> f PC = 0xa9 -> f (PC + 1) = v -> exec p ram 1 2 R f (mkRegs v X Y S (PC + 2) (nzf P v)) f.
Proof.
  intros H1 H2 H3. eapply one_quiet; [exact H1|exact H2|reflexivity|]. rewrite H3. rewrite <- (pc_plus PC 2) by lia. reflexivity.
Qed.
Lemma i_ldx_imm v : 0 <= PC <= 0xfffd -> f PC = 0xa2 -> f (PC + 1) = v -> exec p ram 1 2 R f (mkRegs A v Y S (PC + 2) (nzf P v)) f.
Proof.
  intros H1 H2 H3. eapply one_quiet; [exact H1|exact H2|reflexivity|]. rewrite H3. rewrite <- (pc_plus PC 2) by lia. reflexivity.
Qed.
(** Branches forward. *)
Lemma i_bne_on k : 0 <= PC <= 0xfffd -> f PC = 0xd0 -> ps_zero P = false -> f (PC + 1) = k -> 0 <= k < 128 -> PC + k <= 0xffff ->
  exec p ram 1 (if (PC + k) / 256 =? PC / 256 then 3 else 4) R f (mkRegs A X Y S (PC + k) P) f.
Proof.
  intros H1 H2 H3 H4 Hk Hp. eapply one_quiet; [exact H1|exact H2|reflexivity|]. cbn [execute rP]. rewrite H3. cbn [negb branch_op rPC].
  rewrite H4. unfold signed. replace (k <? 128) with true by lia. rewrite Z.mod_small by lia. destruct (_ =? _); reflexivity.
Qed.
Lemma i_bcc_on k : 0 <= PC <= 0xfffd -> f PC = 0x90 -> ps_carry P = false -> f (PC + 1) = k -> 0 <= k < 128 -> PC + k <= 0xffff ->
  exec p ram 1 (if (PC + k) / 256 =? PC / 256 then 3 else 4) R f (mkRegs A X Y S (PC + k) P) f.
Proof.
  intros H1 H2 H3 H4 Hk Hp. eapply one_quiet; [exact H1|exact H2|reflexivity|]. cbn [execute rP]. rewrite H3. cbn [negb branch_op rPC].
  rewrite H4. unfold signed. replace (k <? 128) with true by lia. rewrite Z.mod_small by lia. destruct (_ =? _); reflexivity.
Qed.
Lemma i_bcc_through : 0 <= PC <= 0xfffd -> f PC = 0x90 -> ps_carry P = true ->
  exec p ram 1 2 R f (mkRegs A X Y S (PC + 2) P) f.
Proof.
  intros H1 H2 H3. eapply one_quiet; [exact H1|exact H2|reflexivity|]. cbn [execute rP]. rewrite H3. cbn [negb branch_op].
  rewrite <- (pc_plus PC 2) by lia. reflexivity.
Qed.
End Instructions.

(** ** Shifting *)
Lemma length_upwards op n : forall a, length (upwards op a n) = (3 * n)%nat.
Proof. induction n as [|n IH]; intros a; [reflexivity|]. cbn [upwards]. rewrite app_length, IH. cbn [length]. lia. Qed.
Lemma length_downwards op n : forall a, length (downwards op a n) = (3 * n)%nat.
Proof. induction n as [|n IH]; intros a; [reflexivity|]. cbn [downwards]. rewrite app_length, IH. cbn [length]. lia. Qed.
Lemma number_ext' f g n : forall a, (forall q, a <= q < a + Z.of_nat n -> g q = f q) -> number g a n = number f a n.
Proof.
  induction n as [|n IH]; intros a H; [reflexivity|]. cbn [number]. rewrite (H a) by lia. f_equal. f_equal. apply IH. intros. apply H. lia.
Qed.
Lemma number_snoc f n : forall a, number f a (S n) = number f a n + 256 ^ Z.of_nat n * f (a + Z.of_nat n).
Proof.
  induction n as [|n IH]; intros a.
  - cbn [number]. replace (a + Z.of_nat 0) with a by lia. change (256 ^ Z.of_nat 0) with 1. lia.
  - change (number f a (S (S n))) with (f a + 256 * number f (a + 1) (S n)). rewrite IH.
    change (number f a (S n)) with (f a + 256 * number f (a + 1) n). rewrite pow256_S.
    replace (a + 1 + Z.of_nat n) with (a + Z.of_nat (S n)) by lia. ring.
Qed.

Lemma rol_bytes p (ram : Z -> Prop) A X Y S : forall n a L P f,
  0 <= L -> L + 3 * Z.of_nat n <= 0xffff -> bytes_from f L (upwards 0x2e a n) ->
  (forall q, a <= q < a + Z.of_nat n -> ram q /\ 0 <= f q < 256 /\ ~ (L <= q < L + 3 * Z.of_nat n)) ->
  exists P' f', exec p ram n (6 * n) (mkRegs A X Y S L P) f (mkRegs A X Y S (L + 3 * Z.of_nat n) P') f' /\
    number f' a n + 256 ^ Z.of_nat n * bit (ps_carry P') 1 = 2 * number f a n + bit (ps_carry P) 1 /\
    (forall q, ~ (a <= q < a + Z.of_nat n) -> f' q = f q) /\ (forall q, a <= q < a + Z.of_nat n -> 0 <= f' q < 256).
Proof.
  induction n as [|n IH]; intros a L P f HL HM B Hq.
  - exists P, f. replace (L + 3 * Z.of_nat 0) with L by lia. split; [constructor|]. split.
    + cbn [number]. change (256 ^ Z.of_nat 0) with 1. lia.
    + split; [reflexivity|intros; lia].
  - cbn [upwards] in B. apply bytes_from_app in B. destruct B as [(B0 & B1 & B2 & _) Br]. cbn [length] in Br.
    replace (L + Z.of_nat 3) with (L + 3) in Br by lia.
    destruct (Hq a ltac:(lia)) as (Hr & Hb & Hc).
    pose proof (i_rol p ram A X Y S L P f a ltac:(lia) B0 B1 ltac:(rewrite <- B2; f_equal; lia) Hr) as X1. cbv zeta in X1.
    set (v := (2 * f a) mod 256 + bit (ps_carry P) 1) in *.
    set (f1 := store1 f (a, v)) in *.
    assert (F1 : forall q, q <> a -> f1 q = f q) by (intros q Hn; apply store1_other; exact Hn).
    destruct (IH (a + 1) (L + 3) (czn P (128 <=? f a) v) f1) as (P' & f' & X2 & N & Fr & By); [lia|lia| | |].
    + eapply bytes_from_ext; [|exact Br]. intros q Hn. rewrite length_upwards in Hn. apply F1. lia.
    + intros q Hn. destruct (Hq q ltac:(lia)) as (? & ? & ?). rewrite F1 by lia. repeat split; try assumption; lia.
    + exists P', f'. split; [|split; [|split]].
      * pose proof (exec_app _ _ _ _ _ _ _ _ X1 _ _ _ _ X2) as X0.
        replace (L + 3 + 3 * Z.of_nat n) with (L + 3 * Z.of_nat (Datatypes.S n)) in X0 by lia.
        replace (6 * Datatypes.S n)%nat with (6 + 6 * n)%nat by lia. exact X0.
      * cbn [number]. rewrite pow256_S. rewrite (Fr a) by lia. unfold f1 at 1. rewrite store1_same.
        rewrite (number_ext' f f1) in N by (intros q Hn; apply F1; lia).
        cbn [ps_carry czn nzf with_c] in N. unfold v. unfold bit in *.
        assert (E : 2 * f a = (2 * f a) mod 256 + 256 * (if 128 <=? f a then 1 else 0)) by (destruct (128 <=? f a) eqn:Q; lia).
        rewrite <- Z.mul_assoc. destruct (128 <=? f a), (ps_carry P), (ps_carry P'); lia.
      * intros q Hn. rewrite Fr by lia. apply F1. lia.
      * intros q Hn. destruct (Z.eq_dec q a) as [->|Hd]; [|apply By; lia]. rewrite Fr by lia. unfold f1. rewrite store1_same.
        unfold v, bit. destruct (ps_carry P); lia.
Qed.

Lemma ror_bytes p (ram : Z -> Prop) A X Y S : forall n a L P f,
  0 <= L -> L + 3 * Z.of_nat n <= 0xffff -> bytes_from f L (downwards 0x6e a n) ->
  (forall q, a <= q < a + Z.of_nat n -> ram q /\ 0 <= f q < 256 /\ ~ (L <= q < L + 3 * Z.of_nat n)) ->
  exists P' f', exec p ram n (6 * n) (mkRegs A X Y S L P) f (mkRegs A X Y S (L + 3 * Z.of_nat n) P') f' /\
    2 * number f' a n + bit (ps_carry P') 1 = number f a n + 256 ^ Z.of_nat n * bit (ps_carry P) 1 /\
    (forall q, ~ (a <= q < a + Z.of_nat n) -> f' q = f q).
Proof.
  induction n as [|n IH]; intros a L P f HL HM B Hq.
  - exists P, f. replace (L + 3 * Z.of_nat 0) with L by lia. split; [constructor|]. split.
    + cbn [number]. change (256 ^ Z.of_nat 0) with 1. lia.
    + reflexivity.
  - cbn [downwards] in B. apply bytes_from_app in B. destruct B as [(B0 & B1 & B2 & _) Br]. cbn [length] in Br.
    replace (L + Z.of_nat 3) with (L + 3) in Br by lia.
    destruct (Hq (a + Z.of_nat n) ltac:(lia)) as (Hr & Hb & Hc).
    pose proof (i_ror p ram A X Y S L P f (a + Z.of_nat n) ltac:(lia) B0 B1 ltac:(rewrite <- B2; f_equal; lia) Hr) as X1. cbv zeta in X1.
    set (v := f (a + Z.of_nat n) / 2 + bit (ps_carry P) 128) in *.
    set (f1 := store1 f (a + Z.of_nat n, v)) in *.
    assert (F1 : forall q, q <> a + Z.of_nat n -> f1 q = f q) by (intros q Hn; apply store1_other; exact Hn).
    destruct (IH a (L + 3) (czn P (f (a + Z.of_nat n) mod 2 =? 1) v) f1) as (P' & f' & X2 & N & Fr); [lia|lia| | |].
    + eapply bytes_from_ext; [|exact Br]. intros q Hn. rewrite length_downwards in Hn. apply F1. lia.
    + intros q Hn. destruct (Hq q ltac:(lia)) as (? & ? & ?). rewrite F1 by lia. repeat split; try assumption; lia.
    + exists P', f'. split; [|split].
      * pose proof (exec_app _ _ _ _ _ _ _ _ X1 _ _ _ _ X2) as X0.
        replace (L + 3 + 3 * Z.of_nat n) with (L + 3 * Z.of_nat (Datatypes.S n)) in X0 by lia.
        replace (6 * Datatypes.S n)%nat with (6 + 6 * n)%nat by lia. exact X0.
      * rewrite !number_snoc, pow256_S. rewrite (Fr (a + Z.of_nat n)) by lia. unfold f1 at 1. rewrite store1_same.
        rewrite (number_ext' f f1) in N by (intros q Hn; apply F1; lia).
        cbn [ps_carry czn nzf with_c] in N. unfold v. unfold bit in *.
        assert (E : f (a + Z.of_nat n) = 2 * (f (a + Z.of_nat n) / 2) + (if f (a + Z.of_nat n) mod 2 =? 1 then 1 else 0))
          by (destruct (_ =? _) eqn:Q; lia).
        generalize dependent (256 ^ Z.of_nat n). intros W N.
        assert (E2 : 2 * (W * (f (a + Z.of_nat n) / 2)) + W * (if f (a + Z.of_nat n) mod 2 =? 1 then 1 else 0) = W * f (a + Z.of_nat n))
          by (rewrite E at 3; ring).
        revert N E2. clear. generalize (f (a + Z.of_nat n) / 2) (number f a n) (number f' a n) (f (a + Z.of_nat n)). intros h N0 N1 u N E2.
        destruct (u mod 2 =? 1), (ps_carry P), (ps_carry P'); lia.
      * intros q Hn. rewrite Fr by lia. apply F1. lia.
Qed.

(** ** Counting *)
Lemma length_carry_on n : forall a, length (carry_on a n) = (5 * n)%nat.
Proof. induction n as [|n IH]; intros a; [reflexivity|]. cbn [carry_on]. rewrite app_length, IH. cbn [length]. lia. Qed.

Lemma number_range f n : forall a, (forall q, a <= q < a + Z.of_nat n -> 0 <= f q < 256) -> 0 <= number f a n < 256 ^ Z.of_nat n.
Proof.
  induction n as [|n IH]; intros a H; [cbn [number]; change (256 ^ Z.of_nat 0) with 1; lia|].
  cbn [number]. rewrite pow256_S. pose proof (H a ltac:(lia)). pose proof (IH (a + 1) ltac:(intros; apply H; lia)). nia.
Qed.

Lemma carry_bytes p (ram : Z -> Prop) A X Y S : forall n a L P f,
  0 <= L -> L + 5 * Z.of_nat n <= 0xffff -> bytes_from f L (carry_on a n) ->
  (forall q, a <= q < a + Z.of_nat n -> ram q /\ 0 <= f q < 256 /\ ~ (L <= q < L + 5 * Z.of_nat n)) ->
  exists k t P' f', exec p ram k t (mkRegs A X Y S L P) f (mkRegs A X Y S (L + 5 * Z.of_nat n) P') f' /\
    (n <= k <= 2 * n)%nat /\ (3 * n <= t <= 8 * n)%nat /\
    number f' a n = (number f a n + bit (ps_zero P) 1) mod 256 ^ Z.of_nat n /\
    ps_zero P' = ps_zero P && (number f' a n =? 0) /\
    (forall q, ~ (a <= q < a + Z.of_nat n) -> f' q = f q) /\ (forall q, a <= q < a + Z.of_nat n -> 0 <= f' q < 256).
Proof.
  induction n as [|n IH]; intros a L P f HL HM B Hq.
  - exists 0%nat, 0%nat, P, f. replace (L + 5 * Z.of_nat 0) with L by lia. split; [constructor|]. split; [lia|]. split; [lia|]. split.
    + cbn [number]. change (256 ^ Z.of_nat 0) with 1. rewrite Z.mod_1_r. reflexivity.
    + split; [cbn [number]; rewrite Z.eqb_refl, andb_true_r; reflexivity|]. split; [reflexivity|intros; lia].
  - cbn [carry_on] in B. apply bytes_from_app in B. destruct B as [(B0 & B1 & B2 & B3 & B4 & _) Br]. cbn [length] in Br.
    replace (L + Z.of_nat 5) with (L + 5) in Br by lia.
    destruct (Hq a ltac:(lia)) as (Hr & Hb & Hc).
    assert (NR : 0 <= number f a (Datatypes.S n) < 256 ^ Z.of_nat (Datatypes.S n)) by (apply number_range; intros; apply Hq; lia).
    destruct (ps_zero P) eqn:Ez.
    + pose proof (i_bne_through p ram A X Y S L P f ltac:(lia) B0 Ez) as X1.
      pose proof (i_inc p ram A X Y S (L + 2) P f a ltac:(lia) ltac:(rewrite <- B2; f_equal; lia) ltac:(rewrite <- B3; f_equal; lia)
        ltac:(rewrite <- B4; f_equal; lia) Hr) as X2.
      set (v := (f a + 1) mod 256) in *.
      set (f1 := store1 f (a, v)) in *.
      assert (F1 : forall q, q <> a -> f1 q = f q) by (intros q Hn; apply store1_other; exact Hn).
      destruct (IH (a + 1) (L + 5) (nzf P v) f1) as (k & t & P' & f' & X3 & K & T & N & Z1 & Fr & By); [lia|lia| | |].
      * eapply bytes_from_ext; [|exact Br]. intros q Hn. rewrite length_carry_on in Hn. apply F1. lia.
      * intros q Hn. destruct (Hq q ltac:(lia)) as (? & ? & ?). rewrite F1 by lia. repeat split; try assumption; lia.
      * replace (L + 2 + 3) with (L + 5) in X2 by lia.
        assert (Ea : f' a = v) by (rewrite Fr by lia; apply store1_same).
        rewrite (number_ext' f f1) in N by (intros q Hn; apply F1; lia). cbn [ps_zero nzf] in N, Z1.
        assert (Nr : 0 <= number f' (a + 1) n < 256 ^ Z.of_nat n) by (apply number_range; intros; apply By; lia).
        exists (1 + (1 + k))%nat, (2 + (6 + t))%nat, P', f'. split; [|split; [lia|split; [lia|split; [|split; [|split]]]]].
        -- pose proof (exec_app _ _ _ _ _ _ _ _ X1 _ _ _ _ (exec_app _ _ _ _ _ _ _ _ X2 _ _ _ _ X3)) as X0.
           replace (L + 5 + 5 * Z.of_nat n) with (L + 5 * Z.of_nat (Datatypes.S n)) in X0 by lia. exact X0.
        -- cbn [number]. rewrite Ea, N, pow256_S. unfold bit. replace (f a + 256 * number f (a + 1) n + 1) with (f a + 1 + 256 * number f (a + 1) n) by lia.
           rewrite mod_split by lia. f_equal. f_equal. f_equal. f_equal. unfold v. destruct (_ =? 0) eqn:Q; lia.
        -- rewrite Z1. cbn [number]. rewrite Ea. assert (0 <= v < 256) by (unfold v; lia). lia.
        -- intros q Hn. rewrite Fr by lia. apply F1. lia.
        -- intros q Hn. destruct (Z.eq_dec q a) as [->|Hd]; [rewrite Ea; unfold v; lia|apply By; lia].
    + pose proof (i_bne_on p ram A X Y S L P f 5 ltac:(lia) B0 Ez B1 ltac:(lia) ltac:(lia)) as X1.
      destruct (IH (a + 1) (L + 5) P f) as (k & t & P' & f' & X3 & K & T & N & Z1 & Fr & By); [lia|lia|exact Br| |].
      * intros q Hn. destruct (Hq q ltac:(lia)) as (? & ? & ?). repeat split; try assumption; lia.
      * rewrite Ez in N, Z1. cbn [andb] in Z1.
        exists (1 + k)%nat. eexists. exists P', f'. split; [|split; [lia|split; [|split; [|split; [|split]]]]].
        -- pose proof (exec_app _ _ _ _ _ _ _ _ X1 _ _ _ _ X3) as X0.
           replace (L + 5 + 5 * Z.of_nat n) with (L + 5 * Z.of_nat (Datatypes.S n)) in X0 by lia. exact X0.
        -- destruct (_ =? _); lia.
        -- unfold bit in *. rewrite Z.add_0_r in *.
           assert (NR1 : 0 <= number f (a + 1) n < 256 ^ Z.of_nat n) by (apply number_range; intros; apply Hq; lia).
           rewrite Z.mod_small in N by exact NR1. rewrite Z.mod_small by exact NR. cbn [number]. rewrite N, (Fr a) by lia. reflexivity.
        -- exact Z1.
        -- intros q Hn. apply Fr. lia.
        -- intros q Hn. destruct (Z.eq_dec q a) as [->|Hd]; [rewrite Fr by lia; exact Hb|apply By; lia].
Qed.

(** ** Multiplying *)
Lemma i_adc' p ram A X Y S PC P f a : 0 <= PC <= 0xfffc -> f PC = 0x6d -> f (PC + 1) = low a -> f (PC + 2) = high a ->
  exists P', exec p ram 1 4 (mkRegs A X Y S PC P) f (mkRegs ((A + f a) mod 256) X Y S (PC + 3) P') f.
Proof. exact (i_adc p ram A X Y S PC P f a). Qed.

Lemma times_round p (ram : Z -> Prop) m n A X Y S L P f : 0 <= L <= 0xffec -> bytes_from f L (times_program m n) ->
  m <> n -> ram m -> ram n -> ~ (L <= m < L + 19) -> ~ (L <= n < L + 19) -> 0 <= A < 256 -> 1 <= X <= 8 ->
  0 <= f m < 256 -> 0 <= f n < 256 ->
  exists k t P' f', (4 <= k <= 6)%nat /\ (17 <= t <= 22)%nat /\
    exec p ram k t (mkRegs A X Y S (L + 4) P) f (mkRegs ((A + f m mod 2 * f n) mod 256) (X - 1) Y S (L + 17) P') f' /\
    ps_zero P' = (X - 1 =? 0) /\ f' m = f m / 2 /\ f' n = (2 * f n) mod 256 /\ (forall q, q <> m -> q <> n -> f' q = f q).
Proof.
  intros HL B Hne Rm Rn Cm Cn HA HX Hm Hn.
  pose proof B as (B0 & B1 & B2 & B3 & B4 & B5 & B6 & B7 & B8 & B9 & B10 & B11 & B12 & B13 & B14 & B15 & B16 & B17 & B18 & _).
  pose proof (i_lsr p ram A X Y S (L + 4) P f m ltac:(lia) ltac:(rewrite <- B4; f_equal; lia) ltac:(rewrite <- B5; f_equal; lia)
    ltac:(rewrite <- B6; f_equal; lia) Rm) as X1.
  set (f1 := store1 f (m, f m / 2)) in *. set (P1 := czn P (f m mod 2 =? 1) (f m / 2)) in *.
  assert (F1 : forall q, q <> m -> f1 q = f q) by (intros q Hq; apply store1_other; exact Hq).
  replace (L + 4 + 3) with (L + 7) in X1 by lia.
  assert (X2 : exists k t P2, (1 <= k <= 3)%nat /\ (3 <= t <= 8)%nat /\
    exec p ram k t (mkRegs A X Y S (L + 7) P1) f1 (mkRegs ((A + f m mod 2 * f n) mod 256) X Y S (L + 13) P2) f1).
  { destruct (f m mod 2 =? 1) eqn:Q.
    - pose proof (i_bcc_through p ram A X Y S (L + 7) P1 f1 ltac:(lia) ltac:(rewrite F1 by lia; rewrite <- B7; f_equal; lia)
        eq_refl) as X2.
      replace (L + 7 + 2) with (L + 9) in X2 by lia.
      pose proof (i_clc p ram A X Y S (L + 9) P1 f1 ltac:(lia) ltac:(rewrite F1 by lia; rewrite <- B9; f_equal; lia)) as X3.
      replace (L + 9 + 1) with (L + 10) in X3 by lia.
      destruct (i_adc' p ram A X Y S (L + 10) (with_c P1 false) f1 n ltac:(lia) ltac:(rewrite F1 by lia; rewrite <- B10; f_equal; lia)
        ltac:(rewrite F1 by lia; rewrite <- B11; f_equal; lia) ltac:(rewrite F1 by lia; rewrite <- B12; f_equal; lia)) as (P2 & X4).
      replace (L + 10 + 3) with (L + 13) in X4 by lia. rewrite (F1 n) in X4 by lia.
      exists (1 + (1 + 1))%nat, (2 + (2 + 4))%nat, P2. split; [lia|]. split; [lia|].
      replace (f m mod 2 * f n) with (f n) by (replace (f m mod 2) with 1 by lia; lia).
      exact (exec_app _ _ _ _ _ _ _ _ X2 _ _ _ _ (exec_app _ _ _ _ _ _ _ _ X3 _ _ _ _ X4)).
    - pose proof (i_bcc_on p ram A X Y S (L + 7) P1 f1 6 ltac:(lia) ltac:(rewrite F1 by lia; rewrite <- B7; f_equal; lia)
        eq_refl ltac:(rewrite F1 by lia; rewrite <- B8; f_equal; lia) ltac:(lia) ltac:(lia)) as X2.
      replace (L + 7 + 6) with (L + 13) in X2 by lia.
      exists 1%nat. eexists. exists P1. split; [lia|]. split; [|].
      2: { replace ((A + f m mod 2 * f n) mod 256) with A; [exact X2|]. replace (f m mod 2) with 0 by lia. rewrite Z.mul_0_l, Z.add_0_r.
           symmetry. apply Z.mod_small. exact HA. }
      clear; match goal with |- context [if ?b then _ else _] => destruct b end; lia. }
  destruct X2 as (k & t & P2 & K & T & X2).
  pose proof (i_asl p ram ((A + f m mod 2 * f n) mod 256) X Y S (L + 13) P2 f1 n ltac:(lia) ltac:(rewrite F1 by lia; rewrite <- B13; f_equal; lia)
    ltac:(rewrite F1 by lia; rewrite <- B14; f_equal; lia) ltac:(rewrite F1 by lia; rewrite <- B15; f_equal; lia) Rn) as X3.
  rewrite (F1 n) in X3 by lia. replace (L + 13 + 3) with (L + 16) in X3 by lia.
  set (P3 := czn P2 (128 <=? f n) ((2 * f n) mod 256)) in *. set (f2 := store1 f1 (n, (2 * f n) mod 256)) in *.
  assert (F2 : forall q, q <> m -> q <> n -> f2 q = f q) by (intros q H1 H2; unfold f2; rewrite store1_other by exact H2; apply F1; exact H1).
  pose proof (i_dex p ram ((A + f m mod 2 * f n) mod 256) X Y S (L + 16) P3 f2 ltac:(lia) ltac:(rewrite F2 by lia; rewrite <- B16; f_equal; lia)) as X4.
  replace (L + 16 + 1) with (L + 17) in X4 by lia. rewrite (Z.mod_small (X - 1)) in X4 by lia.
  exists (1 + (k + (1 + 1)))%nat, (6 + (t + (6 + 2)))%nat, (nzf P3 (X - 1)), f2. split; [lia|]. split; [lia|]. split; [|split; [|split; [|split]]].
  - exact (exec_app _ _ _ _ _ _ _ _ X1 _ _ _ _ (exec_app _ _ _ _ _ _ _ _ X2 _ _ _ _ (exec_app _ _ _ _ _ _ _ _ X3 _ _ _ _ X4))).
  - reflexivity.
  - unfold f2. rewrite store1_other by lia. apply store1_same.
  - apply store1_same.
  - exact F2.
Qed.

Lemma times_loop p (ram : Z -> Prop) m n Y S L : 0 <= L <= 0xffec -> m <> n -> ram m -> ram n ->
  ~ (L <= m < L + 19) -> ~ (L <= n < L + 19) -> forall x, (1 <= x <= 8)%nat -> forall A P f,
  bytes_from f L (times_program m n) -> 0 <= A < 256 -> 0 <= f m < 2 ^ Z.of_nat x -> 0 <= f n < 256 ->
  exists k t P' f', (5 * x <= k <= 7 * x)%nat /\ (20 * x - 1 <= t <= 26 * x)%nat /\
    exec p ram k t (mkRegs A (Z.of_nat x) Y S (L + 4) P) f (mkRegs ((A + f m * f n) mod 256) 0 Y S (L + 19) P') f' /\
    f' m = 0 /\ f' n = (2 ^ Z.of_nat x * f n) mod 256 /\ (forall q, q <> m -> q <> n -> f' q = f q).
Proof.
  intros HL Hne Rm Rn Cm Cn. induction x as [|x IH]; intros Hx A P f B HA Hm Hn; [lia|].
  assert (Hpow : 2 ^ Z.of_nat (Datatypes.S x) = 2 * 2 ^ Z.of_nat x) by (rewrite Nat2Z.inj_succ, Z.pow_succ_r by lia; reflexivity).
  assert (H256 : 2 ^ Z.of_nat (Datatypes.S x) <= 256) by (change 256 with (2 ^ 8); apply Z.pow_le_mono_r; lia).
  destruct (times_round p ram m n A (Z.of_nat (Datatypes.S x)) Y S L P f HL B Hne Rm Rn Cm Cn HA ltac:(lia) ltac:(lia) Hn)
    as (k & t & P1 & f1 & K & T & X1 & Z1 & F1m & F1n & F1).
  replace (Z.of_nat (Datatypes.S x) - 1) with (Z.of_nat x) in X1, Z1 by lia.
  assert (B' : bytes_from f1 L (times_program m n)).
  { eapply bytes_from_ext; [|exact B]. intros q Hq. cbn [length times_program] in Hq. apply F1; lia. }
  pose proof B' as (_ & _ & _ & _ & _ & _ & _ & _ & _ & _ & _ & _ & _ & _ & _ & _ & _ & B17 & B18 & _).
  set (A1 := (A + f m mod 2 * f n) mod 256) in *.
  assert (EA : (A1 + f m / 2 * ((2 * f n) mod 256)) mod 256 = (A + f m * f n) mod 256).
  { unfold A1. rewrite Z.add_mod_idemp_l by lia. rewrite (Z.mod_eq (2 * f n) 256) by lia.
    replace (A + f m mod 2 * f n + f m / 2 * (2 * f n - 256 * (2 * f n / 256)))
      with (A + (2 * (f m / 2) + f m mod 2) * f n + (- (f m / 2 * (2 * f n / 256))) * 256) by ring.
    rewrite Z.mod_add by lia. rewrite <- Z.div_mod by lia. reflexivity. }
  destruct x as [|x].
  - pose proof (i_bne_through p ram A1 (Z.of_nat 0) Y S (L + 17) P1 f1 ltac:(lia) ltac:(rewrite <- B17; f_equal; lia) Z1) as X2.
    replace (L + 17 + 2) with (L + 19) in X2 by lia.
    exists (k + 1)%nat, (t + 2)%nat, P1, f1. split; [lia|]. split; [lia|]. split; [|split; [|split]].
    + replace ((A + f m * f n) mod 256) with A1; [exact (exec_app _ _ _ _ _ _ _ _ X1 _ _ _ _ X2)|].
      unfold A1. f_equal. f_equal. f_equal. change (2 ^ Z.of_nat 1) with 2 in Hm. lia.
    + rewrite F1m. change (2 ^ Z.of_nat 1) with 2 in Hm. lia.
    + rewrite F1n. reflexivity.
    + exact F1.
  - pose proof (i_bne_back p ram A1 (Z.of_nat (Datatypes.S x)) Y S (L + 17) P1 f1 13 ltac:(lia) ltac:(rewrite <- B17; f_equal; lia)
      ltac:(rewrite Z1; lia) ltac:(change (256 - 13) with 0xf3; rewrite <- B18; f_equal; lia) ltac:(lia) ltac:(lia)) as X2.
    replace (L + 17 - 13) with (L + 4) in X2 by lia.
    assert (HA1 : 0 <= A1 < 256) by (unfold A1; apply Z.mod_pos_bound; lia).
    destruct (IH ltac:(lia) A1 P1 f1 B' HA1 ltac:(rewrite F1m; lia) ltac:(rewrite F1n; apply Z.mod_pos_bound; lia)) as (k2 & t2 & P2 & f2 & K2 & T2 & X3 & G1 & G2 & G3).
    rewrite F1m, F1n, EA in X3. rewrite F1n in G2.
    exists (k + (1 + k2))%nat. eexists. exists P2, f2. split; [lia|]. split; [|split; [|split; [|split]]].
    2: exact (exec_app _ _ _ _ _ _ _ _ X1 _ _ _ _ (exec_app _ _ _ _ _ _ _ _ X2 _ _ _ _ X3)).
    + clear - T T2; match goal with |- context [if ?b then _ else _] => destruct b end; lia.
    + exact G1.
    + rewrite G2, Hpow. rewrite Z.mul_mod_idemp_r by lia. f_equal. ring.
    + intros q H1 H2. rewrite G3 by assumption. apply F1; assumption.
Qed.
