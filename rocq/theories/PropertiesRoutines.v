(** C88-C90: what small machine-language routines compute, for every
    placement, operand and length. *)
From Verif Require Import Base Arith ModelMap ModelRegs6502 ModelCpu6502 ModelStep ModelRun6502 SpecMap Link6502 ProofRun6502 ProofBus
  SpecInstr ProofInstr Demo6502 Properties6502Mem Spec6502 SpecProgram ProofProgram PropertiesProgram SpecRoutines ProofRoutines.

(** ** C88: shifting a number of any length *)
(** ASL and ROLs double the number and leave in C the bit that did not fit. *)
Theorem C88_doubling : forall D (dev : Device D) p I ram (cpu : mos6502 D) A X Y S L P f a n,
  let prog := double_program a n in
  let W := 256 ^ (Z.of_nat n + 1) in
  about_to_run p I ram cpu A X Y S L P f prog -> (forall i, 0 <= i <= Z.of_nat n -> variable ram L prog (a + i)) ->
  exists cpu' P' f', runs p (n + 1) (6 * (n + 1)) cpu cpu' /\
    machine_with p I cpu' (mkRegs A X Y S (L + 3 * (Z.of_nat n + 1)) P') f' /\
    number f' a (n + 1) = (2 * number f a (n + 1)) mod W /\ ps_carry P' = (W <=? 2 * number f a (n + 1)) /\
    (forall q, ~ (a <= q <= a + Z.of_nat n) -> f' q = f q).
Proof.
  intros D dev p I ram cpu A X Y S L P f a n prog W (Hb & M & H0 & HL & B) Hv.
  assert (EL : Z.of_nat (length prog) = 3 + 3 * Z.of_nat n) by (unfold prog, double_program; rewrite app_length, length_upwards; cbn [length]; lia).
  rewrite EL in HL. pose proof (machine_bytes p I ram cpu _ f Hb M) as By.
  assert (V : forall q, a <= q <= a + Z.of_nat n -> ram q /\ 0 <= f q < 256 /\ ~ (L <= q < L + (3 + 3 * Z.of_nat n))).
  { intros q Hq. destruct (Hv (q - a) ltac:(lia)) as (U & R & C). rewrite EL in C. replace (a + (q - a)) with q in * by lia.
    split; [exact R|]. split; [exact (By q U)|exact C]. }
  unfold prog, double_program in B. apply bytes_from_app in B. destruct B as [(B0 & B1 & B2 & _) Br]. cbn [length] in Br.
  destruct (V a ltac:(lia)) as (R0 & By0 & C0).
  pose proof (i_asl p ram A X Y S L P f a ltac:(lia) B0 B1 ltac:(rewrite <- B2; f_equal; lia) R0) as X1.
  set (f1 := store1 f (a, (2 * f a) mod 256)) in *.
  assert (F1 : forall q, q <> a -> f1 q = f q) by (intros q Hq; apply store1_other; exact Hq).
  destruct (rol_bytes p ram A X Y S n (a + 1) (L + 3) (czn P (128 <=? f a) ((2 * f a) mod 256)) f1) as (P' & f' & X2 & N & Fr & By'); [lia|lia| | |].
  { eapply bytes_from_ext; [|exact Br]. intros q Hq. rewrite length_upwards in Hq. apply F1. lia. }
  { intros q Hq. destruct (V q ltac:(lia)) as (? & ? & ?). rewrite F1 by lia. repeat split; try assumption; lia. }
  pose proof (exec_app _ _ _ _ _ _ _ _ X1 _ _ _ _ X2) as X0.
  replace (L + 3 + 3 * Z.of_nat n) with (L + 3 * (Z.of_nat n + 1)) in X0 by lia.
  destruct (exec_runs p I ram _ _ _ _ _ _ cpu Hb X0 M) as (cpu' & Rn & M').
  exists cpu', P', f'. split; [|split; [exact M'|]].
  { replace (n + 1)%nat with (1 + n)%nat by lia. replace (6 * (1 + n))%nat with (6 + 6 * n)%nat by lia. exact Rn. }
  replace (n + 1)%nat with (Datatypes.S n) by lia.
  assert (EW : W = 256 * 256 ^ Z.of_nat n) by (unfold W; rewrite <- pow256_S; f_equal; lia).
  assert (Ea : f' a = (2 * f a) mod 256) by (rewrite Fr by lia; apply store1_same).
  rewrite (number_ext' f f1) in N by (intros q Hq; apply F1; lia). cbn [ps_carry czn nzf with_c] in N.
  assert (T : number f' a (Datatypes.S n) + W * bit (ps_carry P') 1 = 2 * number f a (Datatypes.S n)).
  { cbn [number]. rewrite Ea, EW. rewrite <- Z.mul_assoc. unfold bit in *.
    destruct (128 <=? f a) eqn:Q, (ps_carry P'); lia. }
  assert (Hr : 0 <= number f' a (Datatypes.S n) < W).
  { rewrite EW, <- pow256_S. apply number_range. intros q Hq. destruct (Z.eq_dec q a) as [->|Hd]; [rewrite Ea; lia|apply By'; lia]. }
  split; [|split].
  - rewrite <- T. unfold bit. destruct (ps_carry P').
    + rewrite Z.mul_1_r. rewrite <- (Z.mul_1_l W) at 1. rewrite Z.mod_add by lia. symmetry. apply Z.mod_small. exact Hr.
    + rewrite Z.mul_0_r, Z.add_0_r. symmetry. apply Z.mod_small. exact Hr.
  - rewrite <- T. unfold bit. destruct (ps_carry P'); lia.
  - intros q Hq. rewrite Fr by lia. apply F1. lia.
Qed.

(** LSR and RORs halve the number and leave in C the remainder. *)
Theorem C88_halving : forall D (dev : Device D) p I ram (cpu : mos6502 D) A X Y S L P f a n,
  let prog := halve_program a n in
  about_to_run p I ram cpu A X Y S L P f prog -> (forall i, 0 <= i <= Z.of_nat n -> variable ram L prog (a + i)) ->
  exists cpu' P' f', runs p (n + 1) (6 * (n + 1)) cpu cpu' /\
    machine_with p I cpu' (mkRegs A X Y S (L + 3 * (Z.of_nat n + 1)) P') f' /\
    number f' a (n + 1) = number f a (n + 1) / 2 /\ ps_carry P' = Z.odd (number f a (n + 1)) /\
    (forall q, ~ (a <= q <= a + Z.of_nat n) -> f' q = f q).
Proof.
  intros D dev p I ram cpu A X Y S L P f a n prog (Hb & M & H0 & HL & B) Hv.
  assert (EL : Z.of_nat (length prog) = 3 + 3 * Z.of_nat n) by (unfold prog, halve_program; rewrite app_length, length_downwards; cbn [length]; lia).
  rewrite EL in HL. pose proof (machine_bytes p I ram cpu _ f Hb M) as By.
  assert (V : forall q, a <= q <= a + Z.of_nat n -> ram q /\ 0 <= f q < 256 /\ ~ (L <= q < L + (3 + 3 * Z.of_nat n))).
  { intros q Hq. destruct (Hv (q - a) ltac:(lia)) as (U & R & C). rewrite EL in C. replace (a + (q - a)) with q in * by lia.
    split; [exact R|]. split; [exact (By q U)|exact C]. }
  unfold prog, halve_program in B. apply bytes_from_app in B. destruct B as [(B0 & B1 & B2 & _) Br]. cbn [length] in Br.
  destruct (V (a + Z.of_nat n) ltac:(lia)) as (R0 & By0 & C0).
  pose proof (i_lsr p ram A X Y S L P f (a + Z.of_nat n) ltac:(lia) B0 B1 ltac:(rewrite <- B2; f_equal; lia) R0) as X1.
  set (u := f (a + Z.of_nat n)) in *. set (f1 := store1 f (a + Z.of_nat n, u / 2)) in *.
  assert (F1 : forall q, q <> a + Z.of_nat n -> f1 q = f q) by (intros q Hq; apply store1_other; exact Hq).
  destruct (ror_bytes p ram A X Y S n a (L + 3) (czn P (u mod 2 =? 1) (u / 2)) f1) as (P' & f' & X2 & N & Fr); [lia|lia| | |].
  { eapply bytes_from_ext; [|exact Br]. intros q Hq. rewrite length_downwards in Hq. apply F1. lia. }
  { intros q Hq. destruct (V q ltac:(lia)) as (? & ? & ?). rewrite F1 by lia. repeat split; try assumption; lia. }
  pose proof (exec_app _ _ _ _ _ _ _ _ X1 _ _ _ _ X2) as X0.
  replace (L + 3 + 3 * Z.of_nat n) with (L + 3 * (Z.of_nat n + 1)) in X0 by lia.
  destruct (exec_runs p I ram _ _ _ _ _ _ cpu Hb X0 M) as (cpu' & Rn & M').
  exists cpu', P', f'. split; [|split; [exact M'|]].
  { replace (n + 1)%nat with (1 + n)%nat by lia. replace (6 * (1 + n))%nat with (6 + 6 * n)%nat by lia. exact Rn. }
  replace (n + 1)%nat with (Datatypes.S n) by lia.
  assert (Ea : f' (a + Z.of_nat n) = u / 2) by (rewrite Fr by lia; apply store1_same).
  rewrite (number_ext' f f1) in N by (intros q Hq; apply F1; lia). cbn [ps_carry czn nzf with_c] in N.
  assert (T : 2 * number f' a (Datatypes.S n) + bit (ps_carry P') 1 = number f a (Datatypes.S n)).
  { rewrite !number_snoc, Ea. fold u. assert (Eu : u = 2 * (u / 2) + (if u mod 2 =? 1 then 1 else 0)) by (destruct (_ =? 1) eqn:Q; lia).
    assert (E2 : 2 * (256 ^ Z.of_nat n * (u / 2)) + 256 ^ Z.of_nat n * (if u mod 2 =? 1 then 1 else 0) = 256 ^ Z.of_nat n * u)
      by (rewrite Eu at 3; ring).
    revert N E2. clear. unfold bit. generalize (256 ^ Z.of_nat n) (u / 2). intros W h N E2. destruct (u mod 2 =? 1), (ps_carry P'); lia. }
  split; [|split].
  - unfold bit in T. destruct (ps_carry P'); lia.
  - rewrite <- T. rewrite Z.odd_add, Z.odd_mul. cbn [Z.odd andb xorb]. unfold bit. destruct (ps_carry P'); reflexivity.
  - intros q Hq. rewrite Fr by lia. apply F1. lia.
Qed.

(** ** C89: a counter of any length *)
(** INC, then BNE past each further INC: adds one, and Z tells whether the
    counter came back to zero. *)
Theorem C89_counter : forall D (dev : Device D) p I ram (cpu : mos6502 D) A X Y S L P f a n,
  let prog := count_program a n in
  about_to_run p I ram cpu A X Y S L P f prog -> (forall i, 0 <= i <= Z.of_nat n -> variable ram L prog (a + i)) ->
  exists k t cpu' P' f', runs p k t cpu cpu' /\ (n + 1 <= k <= 2 * n + 1)%nat /\ (3 * n + 6 <= t <= 8 * n + 6)%nat /\
    machine_with p I cpu' (mkRegs A X Y S (L + Z.of_nat (length prog)) P') f' /\
    number f' a (n + 1) = (number f a (n + 1) + 1) mod 256 ^ (Z.of_nat n + 1) /\
    ps_zero P' = (number f' a (n + 1) =? 0) /\
    (forall q, ~ (a <= q <= a + Z.of_nat n) -> f' q = f q).
Proof.
  intros D dev p I ram cpu A X Y S L P f a n prog (Hb & M & H0 & HL & B) Hv.
  assert (EL : Z.of_nat (length prog) = 3 + 5 * Z.of_nat n) by (unfold prog, count_program; rewrite app_length, length_carry_on; cbn [length]; lia).
  rewrite EL in *. pose proof (machine_bytes p I ram cpu _ f Hb M) as By.
  assert (V : forall q, a <= q <= a + Z.of_nat n -> ram q /\ 0 <= f q < 256 /\ ~ (L <= q < L + (3 + 5 * Z.of_nat n))).
  { intros q Hq. destruct (Hv (q - a) ltac:(lia)) as (U & R & C). rewrite EL in C. replace (a + (q - a)) with q in * by lia.
    split; [exact R|]. split; [exact (By q U)|exact C]. }
  unfold prog, count_program in B. apply bytes_from_app in B. destruct B as [(B0 & B1 & B2 & _) Br]. cbn [length] in Br.
  destruct (V a ltac:(lia)) as (R0 & By0 & C0).
  pose proof (i_inc p ram A X Y S L P f a ltac:(lia) B0 B1 ltac:(rewrite <- B2; f_equal; lia) R0) as X1.
  set (v := (f a + 1) mod 256) in *. set (f1 := store1 f (a, v)) in *.
  assert (F1 : forall q, q <> a -> f1 q = f q) by (intros q Hq; apply store1_other; exact Hq).
  destruct (carry_bytes p ram A X Y S n (a + 1) (L + 3) (nzf P v) f1) as (k & t & P' & f' & X2 & K & T & N & Z1 & Fr & By'); [lia|lia| | |].
  { eapply bytes_from_ext; [|exact Br]. intros q Hq. rewrite length_carry_on in Hq. apply F1. lia. }
  { intros q Hq. destruct (V q ltac:(lia)) as (? & ? & ?). rewrite F1 by lia. repeat split; try assumption; lia. }
  pose proof (exec_app _ _ _ _ _ _ _ _ X1 _ _ _ _ X2) as X0.
  replace (L + 3 + 5 * Z.of_nat n) with (L + (3 + 5 * Z.of_nat n)) in X0 by lia.
  destruct (exec_runs p I ram _ _ _ _ _ _ cpu Hb X0 M) as (cpu' & Rn & M').
  exists (1 + k)%nat, (6 + t)%nat, cpu', P', f'. split; [exact Rn|]. split; [lia|]. split; [lia|]. split; [exact M'|].
  replace (n + 1)%nat with (Datatypes.S n) by lia. replace (Z.of_nat n + 1) with (Z.of_nat (Datatypes.S n)) by lia.
  assert (Ea : f' a = v) by (rewrite Fr by lia; apply store1_same).
  rewrite (number_ext' f f1) in N by (intros q Hq; apply F1; lia). cbn [ps_zero nzf] in N, Z1.
  assert (Nr : 0 <= number f' (a + 1) n < 256 ^ Z.of_nat n) by (apply number_range; intros; apply By'; lia).
  split; [|split].
  - cbn [number]. rewrite Ea, N, pow256_S. unfold bit.
    replace (f a + 256 * number f (a + 1) n + 1) with (f a + 1 + 256 * number f (a + 1) n) by lia.
    rewrite mod_split by lia. f_equal. f_equal. f_equal. f_equal. unfold v. destruct (_ =? 0) eqn:Q; lia.
  - rewrite Z1. cbn [number]. rewrite Ea. assert (0 <= v < 256) by (unfold v; lia). lia.
  - intros q Hq. rewrite Fr by lia. apply F1. lia.
Qed.

(** ** C90: multiplication *)
(** The shift-and-add loop leaves in A the product modulo 256. *)
Theorem C90_product : forall D (dev : Device D) p I ram (cpu : mos6502 D) A X Y S L P f m n,
  let prog := times_program m n in
  about_to_run p I ram cpu A X Y S L P f prog -> variable ram L prog m -> variable ram L prog n -> m <> n ->
  exists k t cpu' P' f', runs p k t cpu cpu' /\ (42 <= k <= 58)%nat /\ (163 <= t <= 212)%nat /\
    machine_with p I cpu' (mkRegs ((f m * f n) mod 256) 0 Y S (L + 19) P') f' /\
    (forall q, q <> m -> q <> n -> f' q = f q).
Proof.
  intros D dev p I ram cpu A X Y S L P f m n prog (Hb & M & H0 & HL & B) (Um & Rm & Cm) (Un & Rn & Cn) Hne.
  change (Z.of_nat (length prog)) with 19 in *. pose proof (machine_bytes p I ram cpu _ f Hb M) as By.
  pose proof B as (B0 & B1 & B2 & B3 & _).
  pose proof (i_lda_imm p ram A X Y S L P f 0 ltac:(lia) B0 B1) as X1.
  pose proof (i_ldx_imm p ram 0 X Y S (L + 2) (nzf P 0) f 8 ltac:(lia) ltac:(rewrite <- B2; f_equal; lia) ltac:(rewrite <- B3; f_equal; lia)) as X2.
  replace (L + 2 + 2) with (L + 4) in X2 by lia.
  destruct (times_loop p ram m n Y S L ltac:(lia) Hne Rm Rn Cm Cn 8 ltac:(lia) 0 (nzf (nzf P 0) 8) f B ltac:(lia) (By m Um) (By n Un))
    as (k & t & P' & f' & K & T & X3 & _ & _ & Fr).
  destruct (exec_runs p I ram _ _ _ _ _ _ cpu Hb (exec_app _ _ _ _ _ _ _ _ X1 _ _ _ _ (exec_app _ _ _ _ _ _ _ _ X2 _ _ _ _ X3)) M) as (cpu' & Rr & M').
  exists (1 + (1 + k))%nat, (2 + (2 + t))%nat, cpu', P', f'. split; [exact Rr|]. split; [lia|]. split; [lia|]. split; [exact M'|exact Fr].
Qed.

(** ** Concrete cases *)
Lemma demo_about_to_run zp prog a x y : machine_fits zp prog a x y 0xff = true ->
  bytes_from (bytes_at Debug zp prog a x y 0xff ps0) 0x8000 prog ->
  about_to_run Debug (plain_with (fun b => 0 <= b <= 0x3ff)) (fun b => 0 <= b <= 0x3ff) (machine zp prog a x y 0xff ps0)
    a x y 0xff 0x8000 ps0 (bytes_at Debug zp prog a x y 0xff ps0) prog.
Proof.
  intros Hf B. split; [apply plain_ram_bus|]. split; [exact (demo_with Debug zp prog a x y 0xff ps0 Hf)|]. split; [lia|].
  split; [|exact B]. unfold machine_fits in Hf. lia.
Qed.
Lemma demo_variable L prog q : 0x8000 <= L -> 0 <= q <= 0x3ff -> variable (fun b => 0 <= b <= 0x3ff) L prog q.
Proof. intros HL Hq. split; [unfold u16; lia|]. split; [exact Hq|lia]. Qed.

(** 0x8180ff doubled and halved; 0x00ffff counted on. *)
Example C88_doubling_case : exists cpu' P', runs Debug 3 18 (machine [0xff; 0x80; 0x81] (double_program 0 2) 1 2 3 0xff ps0) cpu' /\
  number (peek Debug (amap cpu')) 0 3 = 0x0301fe /\ regs_of cpu' = mkRegs 1 2 3 0xff 0x8009 P' /\ ps_carry P' = true.
Proof.
  destruct (C88_doubling memory _ Debug _ _ _ _ _ _ _ _ _ _ 0 2 (demo_about_to_run [0xff; 0x80; 0x81] (double_program 0 2) 1 2 3 eq_refl
    ltac:(repeat split; vm_compute; reflexivity))) as (cpu' & P' & f' & R & (_ & _ & E & F) & N & C & _).
  { intros i Hi. apply demo_variable; lia. }
  exists cpu', P'. split; [exact R|]. split; [|split; [exact E|rewrite C; vm_compute; reflexivity]].
  rewrite (number_ext' f' _ 3 0) by (intros q Hq; apply F; unfold u16; lia). exact N.
Qed.
Example C88_halving_case : exists cpu' P', runs Debug 3 18 (machine [0xff; 0x80; 0x81] (halve_program 0 2) 1 2 3 0xff ps0) cpu' /\
  number (peek Debug (amap cpu')) 0 3 = 0x40c07f /\ regs_of cpu' = mkRegs 1 2 3 0xff 0x8009 P' /\ ps_carry P' = true.
Proof.
  destruct (C88_halving memory _ Debug _ _ _ _ _ _ _ _ _ _ 0 2 (demo_about_to_run [0xff; 0x80; 0x81] (halve_program 0 2) 1 2 3 eq_refl
    ltac:(repeat split; vm_compute; reflexivity))) as (cpu' & P' & f' & R & (_ & _ & E & F) & N & C & _).
  { intros i Hi. apply demo_variable; lia. }
  exists cpu', P'. split; [exact R|]. split; [|split; [exact E|rewrite C; vm_compute; reflexivity]].
  rewrite (number_ext' f' _ 3 0) by (intros q Hq; apply F; unfold u16; lia). exact N.
Qed.
Example C89_case : exists k t cpu', runs Debug k t (machine [0xff; 0xff; 0x00] (count_program 0 2) 1 2 3 0xff ps0) cpu' /\
  number (peek Debug (amap cpu')) 0 3 = 0x010000.
Proof.
  destruct (C89_counter memory _ Debug _ _ _ _ _ _ _ _ _ _ 0 2 (demo_about_to_run [0xff; 0xff; 0x00] (count_program 0 2) 1 2 3 eq_refl
    ltac:(repeat split; vm_compute; reflexivity))) as (k & t & cpu' & P' & f' & R & _ & _ & (_ & _ & E & F) & N & _).
  { intros i Hi. apply demo_variable; lia. }
  exists k, t, cpu'. split; [exact R|].
  rewrite (number_ext' f' _ 3 0) by (intros q Hq; apply F; unfold u16; lia). exact N.
Qed.
(** 13 * 25 = 325 = 256 + 69. *)
Example C90_case : exists k t cpu', runs Debug k t (machine [13; 25] (times_program 0 1) 1 2 3 0xff ps0) cpu' /\
  reg_acc cpu' = 69 /\ reg_pc cpu' = 0x8013.
Proof.
  destruct (C90_product memory _ Debug _ _ _ _ _ _ _ _ _ _ 0 1 (demo_about_to_run [13; 25] (times_program 0 1) 1 2 3 eq_refl
    ltac:(repeat split; vm_compute; reflexivity))) as (k & t & cpu' & P' & f' & R & _ & _ & (_ & _ & E & F) & _);
    [apply demo_variable; lia|apply demo_variable; lia|lia|].
  exists k, t, cpu'. split; [exact R|]. split.
  - change (rA (regs_of cpu') = 69). rewrite E. vm_compute. reflexivity.
  - change (rPC (regs_of cpu') = 0x8013). rewrite E. reflexivity.
Qed.

Print Assumptions C88_doubling.
Print Assumptions C88_halving.
Print Assumptions C89_counter.
Print Assumptions C90_product.
