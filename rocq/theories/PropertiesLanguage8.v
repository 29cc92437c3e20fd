(** C112, C113: structured programs translated to CHIP-8 code do what they mean. *)
From Verif Require Import Base Arith ModelMap ModelStep ModelDisplay ModelChip8 ModelOpsChip8 ModelRunChip8 SpecMap Link6502
  SpecChip8 SpecChip8Parts SpecChip8Run ProofChip8 ProofChip8Step ProofChip8Reach ProofChip8Run
  SpecRoutines8 ProofRoutines8 PropertiesRoutines8 SpecReplace8 PropertiesReplace8 SpecLanguage8 ProofLanguage8.

Lemma setting8 c L prog : about_to_run8 c L prog -> let hi := L + bytes (translate L prog) in let text := fun a => observe c (PMem a) in
  0 <= L /\ hi < 4096 /\ placed8 L hi text L prog /\ state8 L hi text (observe c) c /\ observe c PPC = L.
Proof.
  intros (W & Hp & (La & _ & Ld) & Hh & G) hi text. split; [exact La|]. split; [exact Hh|]. split; [|split; [|exact Hp]].
  - split; [exact Ld|]. split; [lia|]. split; [unfold hi; lia|exact G].
  - split; [exact W|]. split; [intros q _; reflexivity|intros a _; reflexivity].
Qed.
Lemma instructions_prefix e p n : forall m c w c' w', instructions e p m c w c' w' -> (n <= m)%nat ->
  exists c1 w1, instructions e p n c w c1 w1 /\ instructions e p (m - n) c1 w1 c' w'.
Proof.
  induction n as [|n IH]; intros m c w c' w' X Hn.
  - exists c, w. split; [apply instructions_0|]. rewrite Nat.sub_0_r. exact X.
  - destruct X as (h & <- & X). inversion X as [|? ? word c1 w1 h' ? ? F E X']; subst; [cbn in Hn; lia|]. cbn [length] in *.
    destruct (IH (length h') c1 w1 c' w' (ex_intro _ h' (conj eq_refl X')) ltac:(lia)) as (c2 & w2 & (h2 & El & Y) & Z0).
    exists c2, w2. split; [|exact Z0]. exists ((observe c PPC, word) :: h2). split; [cbn [length]; lia|]. econstructor; eassumption.
Qed.

(** ** C112 *)
(** A program that ends: the machine comes to the end of the code, and looks
    like the final state of the program, its world too. *)
Theorem C112_ends : forall e p c w L prog s' w', env_ok e -> about_to_run8 c L prog ->
  ends8 e p L (L + bytes (translate L prog)) prog (observe c) w s' w' ->
  exists n c', instructions e p n c w c' w' /\ observe c' PPC = L + bytes (translate L prog) /\ looks_like c' s'.
Proof.
  intros e p c w L prog s' w' He Ha E. destruct (setting8 c L prog Ha) as (H0 & H1 & Pl & St & Hp).
  destruct (cmd_executes8 e p He _ _ _ H0 H1 _ _ _ _ _ E L Pl c St Hp) as (n & c' & X & (_ & A & _) & Hp').
  exists n, c'. split; [exact (stays8_instructions X)|]. split; [exact Hp'|exact A].
Qed.

(** The language gives a program one meaning. *)
Theorem C112_one_meaning : forall e p lo hi prog s w s1 w1, ends8 e p lo hi prog s w s1 w1 ->
  forall s2 w2, ends8 e p lo hi prog s w s2 w2 -> s1 = s2 /\ w1 = w2.
Proof.
  intros e p lo hi.
  induction 1 as [s w|op s w s' w' E Sp|c1 c2 s w s1 w1 s2 w2 E1 IH1 E2 IH2|b c1 c2 s w s' w' E IH|b c s w Hb|b c s w s1 w1 s2 w2 Hb E1 IH1 E2 IH2];
    intros s0 w0 K; inversion K; subst; try congruence; try (split; congruence).
  - match goal with A : ends8 _ _ _ _ c1 s w _ _ |- _ => destruct (IH1 _ _ A); subst end. apply IH2. assumption.
  - apply IH. assumption.
  - match goal with A : ends8 _ _ _ _ c s w _ _ |- _ => destruct (IH1 _ _ A); subst end. apply IH2. assumption.
Qed.

(** The machine comes to the end of the code only if the program ends, or
    overwrites itself. *)
Theorem C112_only_then : forall e p c w L prog n c' w', env_ok e -> about_to_run8 c L prog ->
  let hi := L + bytes (translate L prog) in
  instructions e p n c w c' w' -> observe c' PPC = hi ->
  (exists s' w', ends8 e p L hi prog (observe c) w s' w') \/
  (exists op s1 w1, breaks8 e p L hi prog (observe c) w op s1 w1 /\ effect e p s1 w1 op <> None).
Proof.
  intros e p c w L prog n c' w' He Ha hi Hi Hpc. destruct (setting8 c L prog Ha) as (H0 & H1 & Pl & St & Hp).
  destruct (still_or_ends8 e p He _ _ _ H0 H1 (S n) prog L (observe c) w Pl) as [E|[(op & s1 & w1 & B)|N]]; [left; exact E| |exfalso].
  - right. exists op, s1, w1. split; [exact B|]. intros En.
    destruct (cmd_breaks8 e p He _ _ _ H0 H1 _ _ _ _ _ _ B L Pl c St Hp) as (k & m & X & (W & A & _) & Hr & F & Ho & J).
    pose proof (stays8_instructions X) as Xi. destruct (Nat.lt_ge_cases k n) as [Hk|Hk].
    + destruct (instructions_prefix e p k n _ _ _ _ Hi ltac:(lia)) as (c2 & w2 & X2 & Y). destruct (instructions_fun _ _ _ _ _ _ _ _ _ Xi X2) as [<- <-].
      destruct Y as (h & Hl & Y). inversion Y as [|? ? word c3 w3 h' ? ? F3 E3 X']; subst; [cbn in Hl; lia|].
      pose proof (effect_alike e p s1 (observe m) w1 op A J) as K. rewrite En in K.
      pose proof (step_effect e p m w1 W He op Ho F) as S1. rewrite K in S1. cbn [delivers] in S1. congruence.
    + destruct (Nat.eq_dec k n) as [->|Hn].
      * destruct (instructions_fun _ _ _ _ _ _ _ _ _ Xi Hi) as [<- <-]. fold hi in Hr. lia.
      * destruct (stays8_take (S n) X ltac:(lia)) as (c2 & w2 & X2).
        destruct (stays8_last X2) as (c3 & w3 & X3 & Hr3).
        destruct (instructions_fun _ _ _ _ _ _ _ _ _ (stays8_instructions X3) Hi) as [<- <-]. fold hi in Hr3. lia.
  - destruct (N c St Hp) as (c2 & w2 & X2). destruct (stays8_last X2) as (c3 & w3 & X3 & Hr3).
    destruct (instructions_fun _ _ _ _ _ _ _ _ _ (stays8_instructions X3) Hi) as [<- <-]. fold hi in Hr3. lia.
Qed.

(** ** C113 *)
(** A program that neither ends nor goes wrong: the machine executes
    instructions for ever and never leaves the code. *)
Theorem C113_forever : forall e p c w L prog, env_ok e -> about_to_run8 c L prog ->
  let hi := L + bytes (translate L prog) in
  (forall s' w', ~ ends8 e p L hi prog (observe c) w s' w') -> (forall op s' w', ~ breaks8 e p L hi prog (observe c) w op s' w') ->
  forall n, exists c' w', instructions e p n c w c' w' /\ L <= observe c' PPC < hi.
Proof.
  intros e p c w L prog He Ha hi Ne Nb n. destruct (setting8 c L prog Ha) as (H0 & H1 & Pl & St & Hp).
  destruct (still_or_ends8 e p He _ _ _ H0 H1 (S n) prog L (observe c) w Pl) as [(s' & w' & E)|[(op & s1 & w1 & B)|N]];
    [destruct (Ne _ _ E)|destruct (Nb _ _ _ B)|].
  destruct (N c St Hp) as (c2 & w2 & X2). destruct (stays8_last X2) as (c3 & w3 & X3 & Hr3).
  exists c3, w3. split; [exact (stays8_instructions X3)|exact Hr3].
Qed.

(** A program that goes wrong: the machine comes to the instruction at which
    it does, in the state the language says. If the language says that the
    instruction cannot be executed, it panics there. *)
Theorem C113_breaks : forall e p c w L prog op s' w', env_ok e -> about_to_run8 c L prog ->
  let hi := L + bytes (translate L prog) in
  breaks8 e p L hi prog (observe c) w op s' w' ->
  exists n c', instructions e p n c w c' w' /\ L <= observe c' PPC < hi /\ fetches p c' (encode op) /\ looks_like c' s' /\
    (effect e p s' w' op = None -> step e p c' w' = Panic).
Proof.
  intros e p c w L prog op s' w' He Ha hi B. destruct (setting8 c L prog Ha) as (H0 & H1 & Pl & St & Hp).
  destruct (cmd_breaks8 e p He _ _ _ H0 H1 _ _ _ _ _ _ B L Pl c St Hp) as (k & m & X & (W & A & _) & Hr & F & Ho & J).
  exists k, m. split; [exact (stays8_instructions X)|]. split; [exact Hr|]. split; [exact F|]. split; [exact A|].
  intros En. pose proof (effect_alike e p s' (observe m) w' op A J) as K. rewrite En in K.
  pose proof (step_effect e p m w' W He op Ho F) as S1. rewrite K in S1. exact S1.
Qed.

Lemma ends_unbroken e p lo hi prog s w s1 w1 : ends8 e p lo hi prog s w s1 w1 -> forall op s2 w2, ~ breaks8 e p lo hi prog s w op s2 w2.
Proof.
  induction 1 as [s w|op s w s' w' E Sp|c1 c2 s w s1 w1 s2 w2 E1 IH1 E2 IH2|b c1 c2 s w s' w' E IH|b c s w Hb|b c s w s1 w1 s2 w2 Hb E1 IH1 E2 IH2];
    intros op0 s0 w0 K; inversion K; subst; try congruence;
    repeat match goal with A : ends8 _ _ _ _ ?c ?s ?w ?s1 ?w1, B : ends8 _ _ _ _ ?c ?s ?w ?s2 ?w2 |- _ => destruct (C112_one_meaning _ _ _ _ _ _ _ _ _ A _ _ B); subst; clear B end;
    try (eapply IH; eassumption); try (eapply IH1; eassumption); try (eapply IH2; eassumption).
  match goal with Wr : wrong _ _ _ _ _ _ _ |- _ => destruct Wr as [Wr|(s2 & w2 & Wr & N)]; [congruence|] end. apply N. replace s2 with s' by congruence. assumption.
Qed.
(** Of ending and going wrong only one happens, and in one way. *)
Theorem C113_not_both : forall e p lo hi prog s w op s1 w1, breaks8 e p lo hi prog s w op s1 w1 ->
  (forall s2 w2, ~ ends8 e p lo hi prog s w s2 w2) /\
  (forall op2 s2 w2, breaks8 e p lo hi prog s w op2 s2 w2 -> op2 = op /\ s2 = s1 /\ w2 = w1).
Proof.
  intros e p lo hi prog s w op s1 w1 B. split; [intros s2 w2 E; exact (ends_unbroken _ _ _ _ _ _ _ _ _ E _ _ _ B)|]. revert B.
  induction 1 as [op s w Wr|c1 c2 s w op s1 w1 B IH|c1 c2 s w s1 w1 op s2 w2 E1 B IH|b c1 c2 s w op s' w' B IH|b c s w op s1 w1 Hb B IH|b c s w s1 w1 op s2 w2 Hb E1 B IH];
    intros op0 s0 w0 K; inversion K; subst; try congruence;
    repeat match goal with A : ends8 _ _ _ _ ?c ?s ?w ?s1 ?w1, B : ends8 _ _ _ _ ?c ?s ?w ?s2 ?w2 |- _ => destruct (C112_one_meaning _ _ _ _ _ _ _ _ _ A _ _ B); subst; clear B end;
    try (repeat split; reflexivity); try (apply IH; assumption);
    exfalso; match goal with A : ends8 _ _ _ _ ?c ?s ?w ?s1 ?w1, B : breaks8 _ _ _ _ ?c ?s ?w _ _ _ |- _ => exact (ends_unbroken _ _ _ _ _ _ _ _ _ A _ _ _ B) end.
Qed.

(** ** A program: multiplication by repeated counting *)
(** x := 0; while y <> 0 { y := y - 1; t := z; while t <> 0 { x := x + 1; t := t - 1 } } *)
Definition count_over (x t : gp_register) : structured :=
  Loop (NotByte t 0) (Then (Do (AddImmediate x 1)) (Do (AddImmediate t 255))).
Definition multiply_loop (x y z t : gp_register) : structured :=
  Loop (NotByte y 0) (Then (Do (AddImmediate y 255)) (Then (Do (LdVxVy t z)) (count_over x t))).
Definition multiply (x y z t : gp_register) : structured := Then (Do (LdImmediate x 0)) (multiply_loop x y z t).

Section Multiply.
Context (e : environment) (p : profile) (lo hi : Z) (w : world).
Lemma do_add x k s : x <> Vf -> ends8 e p lo hi (Do (AddImmediate x k)) s w (upd (advance s 2) (PV (gp_index x)) ((s (PV (gp_index x)) + k) mod 256)) w.
Proof. intros H. apply ends8_do; [cbn [effect]; rewrite (has_of x H); reflexivity|]. intros a _. reflexivity. Qed.
Lemma do_set x k s : x <> Vf -> ends8 e p lo hi (Do (LdImmediate x k)) s w (upd (advance s 2) (PV (gp_index x)) k) w.
Proof. intros H. apply ends8_do; [cbn [effect]; rewrite (has_of x H); reflexivity|]. intros a _. reflexivity. Qed.
Lemma do_copy x y s : x <> Vf -> y <> Vf -> ends8 e p lo hi (Do (LdVxVy x y)) s w (upd (advance s 2) (PV (gp_index x)) (s (PV (gp_index y)))) w.
Proof. intros H H'. apply ends8_do; [cbn [effect]; rewrite (has_of x H), (has_of y H'); reflexivity|]. intros a _. reflexivity. Qed.
Lemma advance_other s n q : q <> PPC -> advance s n q = s q.
Proof. intros H. unfold advance, upd. destruct q; try reflexivity. contradiction. Qed.
Lemma upd_v_same s k v : upd s (PV k) v (PV k) = v.
Proof. unfold upd. cbn [part_eqb]. rewrite Z.eqb_refl. reflexivity. Qed.
Lemma upd_v_other s k v q : q <> PV k -> upd s (PV k) v q = s q.
Proof. intros H. unfold upd. destruct (part_eqb (PV k) q) eqn:E; [|reflexivity]. destruct q; try discriminate. cbn [part_eqb] in E. apply Z.eqb_eq in E. congruence. Qed.
Lemma pv_differ x y : x <> y -> PV (gp_index x) <> PV (gp_index y).
Proof. intros H K. apply H, index_inj. congruence. Qed.

Lemma count_over_ends x t n : x <> Vf -> t <> Vf -> x <> t -> forall s, s (PV (gp_index t)) = Z.of_nat n -> Z.of_nat n < 256 -> u8 (s (PV (gp_index x))) ->
  exists s', ends8 e p lo hi (count_over x t) s w s' w /\ s' (PV (gp_index x)) = (s (PV (gp_index x)) + Z.of_nat n) mod 256 /\ s' (PV (gp_index t)) = 0 /\
    forall q, q <> PPC -> q <> PV (gp_index x) -> q <> PV (gp_index t) -> s' q = s q.
Proof.
  intros Hx Ht Hd. pose proof (pv_differ x t Hd) as Hd'. induction n as [|n IH]; intros s Et Hn Hu.
  - exists s. unfold u8 in Hu. split; [apply ends8_stop; cbn [holds]; rewrite Et; reflexivity|]. split; [lia|]. split; [exact Et|intros; reflexivity].
  - pose proof (do_add x 1 s Hx) as E1. remember (upd (advance s 2) (PV (gp_index x)) ((s (PV (gp_index x)) + 1) mod 256)) as s1 eqn:D1.
    pose proof (do_add t 255 s1 Ht) as E2. remember (upd (advance s1 2) (PV (gp_index t)) ((s1 (PV (gp_index t)) + 255) mod 256)) as s2 eqn:D2.
    assert (T1 : s1 (PV (gp_index t)) = Z.of_nat (S n)) by (rewrite D1, upd_v_other, advance_other by congruence; exact Et).
    assert (X1 : s1 (PV (gp_index x)) = (s (PV (gp_index x)) + 1) mod 256) by (rewrite D1; apply upd_v_same).
    assert (T2 : s2 (PV (gp_index t)) = Z.of_nat n) by (rewrite D2, upd_v_same, T1; lia).
    assert (X2 : s2 (PV (gp_index x)) = (s (PV (gp_index x)) + 1) mod 256) by (rewrite D2, upd_v_other, advance_other by congruence; exact X1).
    destruct (IH s2 T2 ltac:(lia) ltac:(unfold u8 in *; rewrite X2; lia)) as (s' & E & Xs & Ts & Os).
    exists s'. split; [|split; [|split; [exact Ts|]]].
    + eapply ends8_again; [cbn [holds]; rewrite Et; replace (Z.of_nat (S n) =? 0) with false by lia; reflexivity| |exact E].
      eapply ends8_then; [exact E1|exact E2].
    + rewrite Xs, X2. lia.
    + intros q Q0 Q1 Q2. rewrite Os by assumption. rewrite D2, upd_v_other, advance_other by assumption. rewrite D1, upd_v_other, advance_other by assumption. reflexivity.
Qed.

Lemma multiply_loop_ends x y z t n : NoDup [x; y; z; t; Vf] -> forall s, s (PV (gp_index y)) = Z.of_nat n -> Z.of_nat n < 256 ->
  u8 (s (PV (gp_index x))) -> u8 (s (PV (gp_index z))) ->
  exists s', ends8 e p lo hi (multiply_loop x y z t) s w s' w /\
    s' (PV (gp_index x)) = (s (PV (gp_index x)) + Z.of_nat n * s (PV (gp_index z))) mod 256 /\ s' (PV (gp_index y)) = 0 /\
    forall q, q <> PPC -> q <> PV (gp_index x) -> q <> PV (gp_index y) -> q <> PV (gp_index t) -> s' q = s q.
Proof.
  intros Nd. assert (Ds : x <> y /\ x <> z /\ x <> t /\ y <> z /\ y <> t /\ z <> t /\ x <> Vf /\ y <> Vf /\ z <> Vf /\ t <> Vf).
  { repeat match goal with H : NoDup (_ :: _) |- _ => inversion_clear H end. cbn [In] in *. intuition congruence. }
  destruct Ds as (D1 & D2 & D3 & D4 & D5 & D6 & D7 & D8 & D9 & D10).
  pose proof (pv_differ _ _ D1). pose proof (pv_differ _ _ D2). pose proof (pv_differ _ _ D3). pose proof (pv_differ _ _ D4). pose proof (pv_differ _ _ D5). pose proof (pv_differ _ _ D6).
  induction n as [|n IH]; intros s Ey Hn Hu Hz.
  - exists s. unfold u8 in Hu. split; [apply ends8_stop; cbn [holds]; rewrite Ey; reflexivity|]. split; [lia|]. split; [exact Ey|intros; reflexivity].
  - pose proof (do_add y 255 s D8) as E1. remember (upd (advance s 2) (PV (gp_index y)) ((s (PV (gp_index y)) + 255) mod 256)) as s1 eqn:S1.
    pose proof (do_copy t z s1 D10 D9) as E2. remember (upd (advance s1 2) (PV (gp_index t)) (s1 (PV (gp_index z)))) as s2 eqn:S2.
    assert (O1 : forall q, q <> PPC -> q <> PV (gp_index y) -> s1 q = s q) by (intros q Q0 Q1; rewrite S1, upd_v_other, advance_other by assumption; reflexivity).
    assert (O2 : forall q, q <> PPC -> q <> PV (gp_index t) -> s2 q = s1 q) by (intros q Q0 Q1; rewrite S2, upd_v_other, advance_other by assumption; reflexivity).
    assert (Y1 : s1 (PV (gp_index y)) = Z.of_nat n) by (rewrite S1, upd_v_same, Ey; lia).
    assert (T2 : s2 (PV (gp_index t)) = s (PV (gp_index z))) by (rewrite S2, upd_v_same; apply O1; congruence).
    assert (X2 : s2 (PV (gp_index x)) = s (PV (gp_index x))) by (rewrite O2, O1 by congruence; reflexivity).
    unfold u8 in Hu, Hz.
    destruct (count_over_ends x t (Z.to_nat (s (PV (gp_index z)))) D7 D10 D3 s2 ltac:(rewrite T2; lia) ltac:(lia) ltac:(unfold u8; lia)) as (s3 & E3 & X3 & T3 & O3).
    assert (Y3 : s3 (PV (gp_index y)) = Z.of_nat n) by (rewrite O3, O2 by congruence; exact Y1).
    assert (Z3 : s3 (PV (gp_index z)) = s (PV (gp_index z))) by (rewrite O3, O2, O1 by congruence; reflexivity).
    destruct (IH s3 Y3 ltac:(lia) ltac:(unfold u8; lia) ltac:(unfold u8; lia)) as (s' & E & Xs & Ys & Os).
    exists s'. split; [|split; [|split; [exact Ys|]]].
    + eapply ends8_again; [cbn [holds]; rewrite Ey; replace (Z.of_nat (S n) =? 0) with false by lia; reflexivity| |exact E].
      eapply ends8_then; [exact E1|]. eapply ends8_then; [exact E2|exact E3].
    + rewrite Xs, Z3, X3, X2. rewrite Z2Nat.id by lia. replace (Z.of_nat (S n)) with (Z.of_nat n + 1) by lia.
      rewrite Zplus_mod_idemp_l. f_equal. ring.
    + intros q Q0 Q1 Q2 Q3. rewrite Os, O3, O2, O1 by assumption. reflexivity.
Qed.
End Multiply.

(** For every pair of bytes the machine leaves their product; nothing but the
    three registers and the program counter has changed. *)
Theorem C112_multiply : forall e p c w L x y z t, env_ok e -> NoDup [x; y; z; t; Vf] -> about_to_run8 c L (multiply x y z t) ->
  exists n c', instructions e p n c w c' w /\ observe c' PPC = L + 22 /\
    reg c' x = (reg c y * reg c z) mod 256 /\ reg c' y = 0 /\
    forall q, q <> PPC -> q <> PV (gp_index x) -> q <> PV (gp_index y) -> q <> PV (gp_index t) -> observe c' q = observe c q.
Proof.
  intros e p c w L x y z t He Nd Ha. pose proof Ha as (W & _).
  assert (Ds : x <> y /\ x <> z /\ x <> t /\ x <> Vf /\ y <> Vf /\ z <> Vf).
  { repeat match goal with H : NoDup (_ :: _) |- _ => inversion_clear H end. cbn [In] in *. intuition congruence. }
  destruct Ds as (D1 & D2 & D3 & D7 & D8 & D9).
  pose proof (pv_differ _ _ D1) as Q1. pose proof (pv_differ _ _ D2) as Q2. pose proof (pv_differ _ _ D3) as Q3.
  pose proof (v_byte c y W D8) as By. pose proof (v_byte c z W D9) as Bz. unfold reg, u8 in By, Bz.
  set (lo := L). set (hi := L + bytes (translate L (multiply x y z t))).
  pose proof (do_set e p lo hi w x 0 (observe c) D7) as E1. remember (upd (advance (observe c) 2) (PV (gp_index x)) 0) as s1 eqn:S1.
  assert (O1 : forall q, q <> PPC -> q <> PV (gp_index x) -> s1 q = observe c q) by (intros q K0 K1; rewrite S1, upd_v_other, advance_other by assumption; reflexivity).
  assert (X1 : s1 (PV (gp_index x)) = 0) by (rewrite S1; apply upd_v_same).
  assert (Y1 : s1 (PV (gp_index y)) = observe c (PV (gp_index y))) by (apply O1; congruence).
  assert (Z1 : s1 (PV (gp_index z)) = observe c (PV (gp_index z))) by (apply O1; congruence).
  destruct (multiply_loop_ends e p lo hi w x y z t (Z.to_nat (observe c (PV (gp_index y)))) Nd s1 ltac:(rewrite Y1; lia) ltac:(lia) ltac:(unfold u8; lia) ltac:(unfold u8; lia))
    as (s' & E2 & Xs & Ys & Os).
  destruct (C112_ends e p c w L (multiply x y z t) s' w He Ha (ends8_then _ _ _ _ _ _ _ _ _ _ _ _ E1 E2)) as (n & c' & X & Hp & A).
  exists n, c'. split; [exact X|]. split; [rewrite Hp; reflexivity|]. unfold reg. split; [|split].
  - rewrite A by discriminate. rewrite Xs, X1, Z1, Z2Nat.id by lia. f_equal.
  - rewrite A by discriminate. exact Ys.
  - intros q K0 K1 K2 K3. rewrite A, Os, O1 by assumption. reflexivity.
Qed.

(** ** Concrete cases *)
(** 6 times 7, with V1 = 6 and V2 = 7 set up by the program itself. *)
Definition forty_two : structured := Then (Then (Do (LdImmediate V1 6)) (Do (LdImmediate V2 7))) (multiply V0 V1 V2 V3).
Lemma demo_with prog : good8 prog -> Forall operands_ok (translate 0x200 prog) -> 0x200 + bytes (translate 0x200 prog) < 4096 ->
  exists c, about_to_run8 c 0x200 prog /\ observe c (PV 1) = 0 /\ observe c PKey = -1.
Proof.
  intros G F H. assert (K : observe looping_demo PKey = -1) by (vm_compute; reflexivity).
  pose proof looping_loaded as X. revert X K. generalize looping_demo. intros c (W & _ & Hp & V1_0) K.
  destruct (put_instructions (translate 0x200 prog) c 0x200 W ltac:(lia) ltac:(unfold bytes in H; lia) F) as (c2 & W2 & L2 & Ag).
  exists c2. split; [|split; (rewrite Ag; [assumption|intros []])]. split; [exact W2|]. split; [rewrite Ag; [exact Hp|intros []]|]. split; [exact L2|]. split; [exact H|exact G].
Qed.
Example C112_case : exists c n c' s', about_to_run8 c 0x200 forty_two /\ ends8 env0 Debug 0x200 0x21a forty_two (observe c) w0 s' w0 /\
  instructions env0 Debug n c w0 c' w0 /\ observe c' PPC = 0x21a /\ observe c' (PV 0) = 42.
Proof.
  destruct (demo_with forty_two) as (c & Ha & _).
  { repeat split; try discriminate; cbn; unfold u8; lia. }
  { repeat constructor; cbn; unfold u8; lia. }
  { reflexivity. }
  set (hi := 0x21a). assert (D : NoDup [V0; V1; V2; V3; Vf]) by (repeat constructor; cbn [In]; intuition discriminate).
  pose proof (do_set env0 Debug 0x200 hi w0 V1 6 (observe c) ltac:(discriminate)) as E1. remember (upd (advance (observe c) 2) (PV (gp_index V1)) 6) as s1 eqn:S1.
  pose proof (do_set env0 Debug 0x200 hi w0 V2 7 s1 ltac:(discriminate)) as E2. remember (upd (advance s1 2) (PV (gp_index V2)) 7) as s2 eqn:S2.
  pose proof (do_set env0 Debug 0x200 hi w0 V0 0 s2 ltac:(discriminate)) as E3. remember (upd (advance s2 2) (PV (gp_index V0)) 0) as s3 eqn:S3.
  destruct (multiply_loop_ends env0 Debug 0x200 hi w0 V0 V1 V2 V3 6 D s3 ltac:(subst; reflexivity) ltac:(lia) ltac:(subst; cbn; unfold u8; lia) ltac:(subst; cbn; unfold u8; lia))
    as (s' & E & Xs & _).
  assert (En : ends8 env0 Debug 0x200 hi forty_two (observe c) w0 s' w0) by (eapply ends8_then; [eapply ends8_then; eassumption|eapply ends8_then; eassumption]).
  destruct (C112_ends env0 Debug c w0 0x200 forty_two s' w0 env0_ok Ha En) as (n & c' & X & Hp & A).
  exists c, n, c', s'. split; [exact Ha|]. split; [exact En|]. split; [exact X|]. split; [exact Hp|].
  rewrite A by discriminate. change (PV 0) with (PV (gp_index V0)). rewrite Xs. subst. reflexivity.
Qed.

(** Wait for a key that nobody presses. *)
Definition wait_key : structured := Loop (Released V1) Nothing.
Lemma wait_key_never e p lo hi s w : s PKey <> s (PV 1) -> (forall s' w', ~ ends8 e p lo hi wait_key s w s' w') /\ (forall op s' w', ~ breaks8 e p lo hi wait_key s w op s' w').
Proof.
  intros H. assert (K : holds (Released V1) s = true) by (cbn [holds gp_index]; destruct (Z.eqb_spec (s PKey) (s (PV 1))); [contradiction|reflexivity]).
  assert (N : forall c s0 w0 s' w', ends8 e p lo hi c s0 w0 s' w' -> c = wait_key -> holds (Released V1) s0 = true -> False).
  { induction 1 as [| | | |b c s0 w0 Hb|b c s0 w0 s1 w1 s2 w2 Hb E1 IH1 E2 IH2]; intros Ec Hs; try discriminate Ec; injection Ec as -> ->; [congruence|].
    inversion E1; subst. exact (IH2 eq_refl Hs). }
  assert (B : forall c s0 w0 op s' w', breaks8 e p lo hi c s0 w0 op s' w' -> c = wait_key -> False).
  { induction 1 as [| | | |b c s0 w0 op s1 w1 Hb B IH|b c s0 w0 s1 w1 op s2 w2 Hb E1 B IH]; intros Ec; try discriminate Ec; injection Ec as -> ->; [inversion B|exact (IH eq_refl)]. }
  split; [intros s' w' E; exact (N _ _ _ _ _ E eq_refl K)|intros op s' w' E; exact (B _ _ _ _ _ _ E eq_refl)].
Qed.
Example C113_forever_case : exists c, about_to_run8 c 0x200 wait_key /\
  forall n, exists c' w', instructions env0 Debug n c w0 c' w' /\ 0x200 <= observe c' PPC < 0x206.
Proof.
  destruct (demo_with wait_key) as (c & Ha & V1_0 & K).
  { repeat split; discriminate. }
  { repeat constructor; cbn; lia. }
  { reflexivity. }
  exists c. split; [exact Ha|]. destruct (wait_key_never env0 Debug 0x200 0x206 (observe c) w0 ltac:(rewrite V1_0, K; discriminate)) as [N B].
  exact (C113_forever env0 Debug c w0 0x200 wait_key env0_ok Ha N B).
Qed.
(** 8xy4 panics: there is no VF. *)
Definition adding : structured := Then (Do (LdImmediate V0 1)) (Do (AddVxVy V0 V1)).
Example C113_breaks_case : exists c n c', about_to_run8 c 0x200 adding /\ instructions env0 Debug n c w0 c' w0 /\ observe c' (PV 0) = 1 /\ step env0 Debug c' w0 = Panic.
Proof.
  destruct (demo_with adding) as (c & Ha & _).
  { repeat split; cbn; unfold u8; lia. }
  { repeat constructor; cbn; unfold u8; lia. }
  { reflexivity. }
  pose proof (do_set env0 Debug 0x200 0x204 w0 V0 1 (observe c) ltac:(discriminate)) as E1. remember (upd (advance (observe c) 2) (PV (gp_index V0)) 1) as s1 eqn:S1.
  destruct (C113_breaks env0 Debug c w0 0x200 adding (AddVxVy V0 V1) s1 w0 env0_ok Ha) as (n & c' & X & _ & _ & A & Pn).
  { eapply breaks8_then2; [exact E1|]. apply breaks8_do. left. reflexivity. }
  exists c, n, c'. split; [exact Ha|]. split; [exact X|]. split; [rewrite A by discriminate; subst; reflexivity|exact (Pn eq_refl)].
Qed.

Print Assumptions C112_ends.
Print Assumptions C112_one_meaning.
Print Assumptions C112_only_then.
Print Assumptions C112_multiply.
Print Assumptions C113_forever.
Print Assumptions C113_breaks.
Print Assumptions C113_not_both.
