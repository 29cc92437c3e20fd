(** C110, C111: programs of a small language with loops and tables, translated
    to 6502 code, do what the language says. *)
From Verif Require Import Base Arith ModelMap ModelRegs6502 ModelCpu6502 ModelStep ModelRun6502 SpecMap Link6502 ProofRun6502 ProofBus
  SpecInstr ProofInstr Demo6502 Properties6502Mem Spec6502 SpecProgram ProofProgram PropertiesProgram SpecRoutines ProofRoutines PropertiesRoutines
  SpecLanguage ProofLanguage.

Lemma within_ext (E E' : expr -> Prop) (W W' : Z -> Prop) c : (forall e, E e -> E' e) -> (forall q, W q -> W' q) -> within E W c -> within E' W' c.
Proof.
  intros HE HW. induction c as [|v e|a i e|c1 IH1 c2 IH2|e c1 IH1 c2 IH2|e c IH]; cbn [within]; intros H.
  - exact I.
  - split; [apply HW|apply HE]; apply H.
  - destruct H as (H1 & H2 & H3 & H4). split; [intros k Hk; apply HW; apply H1; exact Hk|]. split; [apply HE; exact H2|]. split; [exact H3|apply HE; exact H4].
  - split; [apply IH1|apply IH2]; apply H.
  - split; [apply HE; apply H|]. split; [apply IH1|apply IH2]; apply H.
  - split; [apply HE|apply IH]; apply H.
Qed.

(** ** C110: expressions *)
(** The code of an expression leaves its value in A and Z telling whether it
    is zero. It changes nothing but X, the flags, the scratch byte and as many
    bytes of the stack as the expression is deep. *)
Theorem C110_expression : forall D (dev : Device D) p I ram (cpu : mos6502 D) A X Y S L P f t e,
  let prog := code t e in
  about_to_run p I ram cpu A X Y S L P f prog -> L + len prog <= 0xfffe -> workspace ram t L prog -> good_expr t e ->
  exists k n cpu' X' P' f', runs p k n cpu cpu' /\
    machine_with p I cpu' (mkRegs (value f e) X' Y S (L + len prog) P') f' /\
    ps_zero P' = (value f e =? 0) /\
    (forall q, q <> t -> (forall j, 0 <= j < depth e -> q <> stack (S - j)) -> f' q = f q).
Proof.
  intros D dev p I ram cpu A X Y S L P f t e prog (Hb & M & H0 & HL & B) HL2 (Ht & Hv) [R Dp].
  pose proof (machine_bytes p I ram cpu _ f Hb M) as By. fold (len prog) in HL.
  assert (HS : 0 <= S < 256) by (destruct M as (_ & (_ & _ & _ & K & _) & _); exact K).
  destruct (expr_executes p ram t L (L + len prog) f H0 Hv Ht e L f (fun q _ => eq_refl) By B ltac:(lia) ltac:(unfold prog; lia) HL2 R Dp A X Y S P HS)
    as (k & n & X' & P' & f' & _ & G & Zf & Fr & _).
  destruct (exec_runs p I ram _ _ _ _ _ _ cpu Hb (stays_exec _ _ _ _ _ _ _ _ _ _ G) M) as (cpu' & Rn & M').
  exists k, n, cpu', X', P', f'. split; [exact Rn|]. split; [exact M'|]. split; [exact Zf|].
  intros q Hq Hj. apply Fr; [exact Hq|]. intros (j & Hj1 & E). exact (Hj j Hj1 E).
Qed.

(** ** C111: programs *)
Section Programs.
Context {D : Type} {dev : Device D} (p : profile) (I : address_map D -> Prop) (ram : Z -> Prop) (cpu : mos6502 D)
  (A X Y S L : Z) (P : processor_status) (f : Z -> Z) (t : Z) (c : cmd).

Lemma setting : about_to_run p I ram cpu A X Y S L P f (compile t L c) -> workspace ram t L (compile t L c) -> good_cmd ram t L (compile t L c) c ->
  let hi := L + len (compile t L c) in
  hi <= 0xffff /\ placed ram t L hi f L c /\ state_ok t L hi f f f /\ 0 <= S < 256 /\
  (forall q, scratch t q -> u16 q /\ ram q /\ ~ (L <= q < hi)).
Proof.
  intros (Hb & M & H0 & HL & B) (Ht & Hv) G hi. pose proof (machine_bytes p I ram cpu _ f Hb M) as By.
  split; [exact HL|]. split; [|split; [|split]].
  - split; [exact B|]. split; [lia|]. split; [unfold hi; lia|]. eapply within_ext; [| |exact G].
    + intros e He. exact He.
    + intros q Hq. exact Hq.
  - split; [intros q _; reflexivity|]. split; [intros q _; reflexivity|exact By].
  - destruct M as (_ & (_ & _ & _ & K & _) & _). exact K.
  - exact Hv.
Qed.
End Programs.

(** A program that ends: the processor comes to the end of its code with the
    final values in memory. Only the scratch byte and the stack may differ
    from the final state; S and Y are as before. *)
Theorem C111_ends : forall D (dev : Device D) p I ram (cpu : mos6502 D) A X Y S L P f t c s',
  let prog := compile t L c in
  about_to_run p I ram cpu A X Y S L P f prog -> workspace ram t L prog -> good_cmd ram t L prog c -> ends c f s' ->
  exists k n cpu' A' X' P' f', runs p k n cpu cpu' /\ machine_with p I cpu' (mkRegs A' X' Y S (L + len prog) P') f' /\
    (forall q, ~ scratch t q -> f' q = s' q).
Proof.
  intros D dev p I ram cpu A X Y S L P f t c s' prog Ha Hw Hg E.
  destruct (setting p I ram cpu A X Y S L P f t c Ha Hw Hg) as (H1 & Pl & St & HS & Hv). fold prog in H1, Pl, St, Hv.
  pose proof Ha as (Hb & M & H0 & _). destruct Hw as (Ht & _).
  destruct (cmd_executes p ram t L (L + len prog) f H0 H1 Hv Ht c f s' E L Pl f A X Y S P St HS) as (k & n & A' & X' & P' & f' & G & (Ca & _)).
  destruct (exec_runs p I ram _ _ _ _ _ _ cpu Hb (stays_exec _ _ _ _ _ _ _ _ _ _ G) M) as (cpu' & Rn & M').
  exists k, n, cpu', A', X', P', f'. split; [exact Rn|]. split; [exact M'|]. intros q Hq. apply Ca. exact Hq.
Qed.

(** A program that does not end: the processor never leaves its code. *)
Theorem C111_forever : forall D (dev : Device D) p I ram (cpu : mos6502 D) A X Y S L P f t c,
  let prog := compile t L c in
  about_to_run p I ram cpu A X Y S L P f prog -> workspace ram t L prog -> good_cmd ram t L prog c -> (forall s', ~ ends c f s') ->
  forall k, exists n cpu', steps p k n cpu cpu' /\ L <= rPC (regs_of cpu') < L + len prog.
Proof.
  intros D dev p I ram cpu A X Y S L P f t c prog Ha Hw Hg Ne k.
  destruct (setting p I ram cpu A X Y S L P f t c Ha Hw Hg) as (H1 & Pl & St & HS & Hv). fold prog in H1, Pl, St, Hv.
  pose proof Ha as (Hb & M & H0 & _). destruct Hw as (Ht & _).
  destruct (still_or_ends p ram t L (L + len prog) f H0 H1 Hv Ht (Datatypes.S k) c L f (ex_intro _ f St) Pl) as [[s' E]|N]; [destruct (Ne s' E)|].
  destruct (N f A X Y S P St HS) as (n & r' & f' & G). destruct (stays_last _ _ _ _ _ _ _ _ _ _ G) as (n1 & r1 & f1 & G1 & Hpc).
  destruct (exec_sound p I ram Hb _ _ _ _ _ _ (stays_exec _ _ _ _ _ _ _ _ _ _ G1) cpu M) as (cpu' & S' & (_ & _ & Er & _)).
  exists n1, cpu'. split; [exact S'|]. rewrite Er. exact Hpc.
Qed.

(** The processor comes to the end of the code only if the program ends. *)
Theorem C111_only_then : forall D (dev : Device D) p I ram (cpu : mos6502 D) A X Y S L P f t c k n cpu',
  let prog := compile t L c in
  about_to_run p I ram cpu A X Y S L P f prog -> workspace ram t L prog -> good_cmd ram t L prog c ->
  steps p k n cpu cpu' -> rPC (regs_of cpu') = L + len prog -> exists s', ends c f s'.
Proof.
  intros D dev p I ram cpu A X Y S L P f t c k n cpu' prog Ha Hw Hg Hs Hpc.
  destruct (setting p I ram cpu A X Y S L P f t c Ha Hw Hg) as (H1 & Pl & St & HS & Hv). fold prog in H1, Pl, St, Hv.
  pose proof Ha as (Hb & M & H0 & _). destruct Hw as (Ht & _).
  destruct (still_or_ends p ram t L (L + len prog) f H0 H1 Hv Ht (Datatypes.S k) c L f (ex_intro _ f St) Pl) as [E|N]; [exact E|exfalso].
  destruct (N f A X Y S P St HS) as (m & r' & f' & G). destruct (stays_last _ _ _ _ _ _ _ _ _ _ G) as (n1 & r1 & f1 & G1 & Hq).
  destruct (exec_sound p I ram Hb _ _ _ _ _ _ (stays_exec _ _ _ _ _ _ _ _ _ _ G1) cpu M) as (cpu2 & S2 & (_ & _ & Er & _)).
  destruct (steps_det p _ _ _ _ S2 _ _ Hs) as [_ E]. subst cpu'. rewrite Er in Hpc. lia.
Qed.

(** The language gives a program one meaning. *)
Theorem C111_one_meaning : forall c s s1, ends c s s1 -> forall s2, ends c s s2 -> s1 = s2.
Proof.
  induction 1 as [s|v e s|a i e s|c1 c2 s s1 s2 E1 IH1 E2 IH2|e c1 c2 s s' E IH|e c s Ez|e c s s1 s2 En E1 IH1 E2 IH2]; intros s0 K; inversion K; subst; try reflexivity; try contradiction.
  - match goal with A : ends c1 s _, B : ends c2 _ s0 |- _ => rewrite <- (IH1 _ A) in B; exact (IH2 _ B) end.
  - apply IH. assumption.
  - match goal with A : ends c s _, B : ends (While e c) _ s0 |- _ => rewrite <- (IH1 _ A) in B; exact (IH2 _ B) end.
Qed.

(** ** A program: the sum of the first n bytes of a table *)
(** while n { n := n - 1; sum := sum + table[n] } with n at 0x10, sum at 0x11
    and the table at 0x200. *)
Definition sum_cmd : cmd :=
  While (Var 0x10) (Seq (Assign 0x10 (Op Minus (Var 0x10) (Const 1))) (Assign 0x11 (Op Plus (Var 0x11) (Item 0x200 (Var 0x10))))).
Fixpoint total (s : Z -> Z) (n : nat) : Z := match n with O => 0 | Datatypes.S n' => s (0x200 + Z.of_nat n') + total s n' end.

Lemma total_ext s s' n : (forall q, 0x200 <= q -> s' q = s q) -> total s' n = total s n.
Proof. intros H. induction n as [|n IH]; [reflexivity|]. cbn [total]. rewrite H, IH by lia. reflexivity. Qed.
Lemma sum_ends n : forall s, (n < 256)%nat -> s 0x10 = Z.of_nat n -> 0 <= s 0x11 < 256 ->
  exists s', ends sum_cmd s s' /\ s' 0x10 = 0 /\ s' 0x11 = (s 0x11 + total s n) mod 256 /\
    (forall q, q <> 0x10 -> q <> 0x11 -> s' q = s q).
Proof.
  induction n as [|n IH]; intros s Hn E H1.
  - exists s. split; [apply ends_stop; exact E|]. split; [exact E|]. cbn [total]. split; [lia|reflexivity].
  - set (s1 := set s 0x10 (Z.of_nat n)). set (s2 := set s1 0x11 ((s 0x11 + s (0x200 + Z.of_nat n)) mod 256)).
    assert (F : forall q, 0x200 <= q -> s2 q = s q).
    { intros q Hq. unfold s2, s1, set. replace (q =? 0x11) with false by lia. replace (q =? 0x10) with false by lia. reflexivity. }
    destruct (IH s2 ltac:(lia) eq_refl ltac:(unfold s2, set; cbn [Z.eqb Pos.eqb]; lia)) as (s' & K & K0 & K1 & K2).
    exists s'. split; [|split; [exact K0|split]].
    + unfold sum_cmd. eapply ends_again; [cbn [value]; rewrite E; lia| |exact K].
      apply ends_seq with (s1 := s1).
      * replace s1 with (set s 0x10 (value s (Op Minus (Var 0x10) (Const 1)))); [constructor|]. unfold s1. f_equal. cbn [value apply]. rewrite E. lia.
      * replace s2 with (set s1 0x11 (value s1 (Op Plus (Var 0x11) (Item 0x200 (Var 0x10))))); [constructor|].
        unfold s2. f_equal. cbn [value apply]. change (s1 0x10) with (Z.of_nat n). change (s1 0x11) with (s 0x11).
        replace (s1 (0x200 + Z.of_nat n)) with (s (0x200 + Z.of_nat n)); [reflexivity|].
        unfold s1, set. replace (_ =? _) with false by lia. reflexivity.
    + rewrite K1. rewrite (total_ext s s2) by exact F. change (s2 0x11) with ((s 0x11 + s (0x200 + Z.of_nat n)) mod 256). cbn [total]. lia.
    + intros q N0 N1. rewrite K2 by assumption. unfold s2, s1, set. replace (q =? 0x11) with false by lia. replace (q =? 0x10) with false by lia. reflexivity.
Qed.

(** For every count and every table, the emulator adds them up. *)
Theorem C111_sum : forall D (dev : Device D) p I ram (cpu : mos6502 D) A X Y S L P f,
  let prog := compile 0x12 L sum_cmd in
  about_to_run p I ram cpu A X Y S L P f prog -> (forall q, 0 <= q < 0x300 -> variable ram L prog q) ->
  exists k n cpu', runs p k n cpu cpu' /\ rPC (regs_of cpu') = L + len prog /\
    peek p (amap cpu') 0x11 = (f 0x11 + total f (Z.to_nat (f 0x10))) mod 256.
Proof.
  intros D dev p I ram cpu A X Y S L P f prog Ha Hv. pose proof Ha as (Hb & M & _). pose proof (machine_bytes p I ram cpu _ f Hb M) as By.
  pose proof (By 0x10 ltac:(unfold u16; lia)) as B0. pose proof (By 0x11 ltac:(unfold u16; lia)) as B1. unfold u8 in B0, B1.
  assert (Hw : workspace ram 0x12 L prog).
  { split; [unfold page_one; lia|]. intros q [->|Hq]; apply Hv; unfold page_one in *; lia. }
  assert (Hg : good_cmd ram 0x12 L prog sum_cmd).
  { assert (R : forall q, 0 <= q < 0x300 -> q <> 0x12 -> ~ (0x100 <= q <= 0x1ff) -> u16 q /\ ~ scratch 0x12 q).
    { intros q H1 H2 H3. split; [unfold u16; lia|]. intros [->|K]; [lia|exact (H3 K)]. }
    unfold sum_cmd, good_cmd, good_expr. cbn [within reads depth].
    repeat match goal with |- _ /\ _ => split | |- forall k, _ -> _ => intros end; try (apply R; lia); try (apply Hv; lia); lia. }
  destruct (sum_ends (Z.to_nat (f 0x10)) f ltac:(lia) ltac:(lia) ltac:(lia)) as (s' & E & _ & E1 & _).
  destruct (C111_ends D dev p I ram cpu A X Y S L P f 0x12 sum_cmd s' Ha Hw Hg E) as (k & n & cpu' & A' & X' & P' & f' & Rn & (_ & _ & Er & Ef) & Fr).
  exists k, n, cpu'. split; [exact Rn|]. split; [rewrite Er; reflexivity|].
  rewrite Ef by (unfold u16; lia). rewrite Fr; [exact E1|]. intros [K|K]; [lia|unfold page_one in K; lia].
Qed.

(** ** Concrete cases *)
Definition demo_zp : list Z := repeat 0 0x10 ++ [3; 250; 0] ++ repeat 0 (0x200 - 0x13) ++ [10; 20; 30; 40].
(** 250 + 10 + 20 + 30 = 256 + 54. *)
Example C111_case : exists k n cpu', runs Debug k n (machine demo_zp (compile 0x12 0x8000 sum_cmd) 1 2 3 0xff ps0) cpu' /\
  reg_pc cpu' = 0x8000 + len (compile 0x12 0x8000 sum_cmd) /\ peek Debug (amap cpu') 0x11 = 54.
Proof.
  destruct (C111_sum memory _ Debug _ _ _ _ _ _ _ _ _ _ (demo_about_to_run demo_zp (compile 0x12 0x8000 sum_cmd) 1 2 3 eq_refl
    ltac:(repeat split; vm_compute; reflexivity))) as (k & n & cpu' & Rn & E1 & E2).
  { intros q Hq. apply demo_variable; lia. }
  exists k, n, cpu'. split; [exact Rn|]. split; [exact E1|]. rewrite E2. vm_compute. reflexivity.
Qed.
(** (7 + 5 * 2) xor (table[1] / 2) with 5 at 0 and the table 8, 9 at 0x200. *)
Definition demo_expr : expr := Op Exclusive (Op Plus (Const 7) (Double (Var 0))) (Half (Item 0x200 (Const 1))).
Example C110_case : exists k n cpu', runs Debug k n (machine (5 :: repeat 0 0x1ff ++ [8; 9]) (code 0x12 demo_expr) 1 2 3 0xff ps0) cpu' /\
  reg_acc cpu' = Z.lxor 17 4 /\ reg_sp cpu' = 0xff.
Proof.
  assert (R : forall q, 0 <= q < 0x300 -> q <> 0x12 -> ~ (0x100 <= q <= 0x1ff) -> u16 q /\ ~ scratch 0x12 q).
  { intros q H1 H2 H3. split; [unfold u16; lia|]. intros [->|K]; [lia|exact (H3 K)]. }
  destruct (C110_expression memory _ Debug _ _ _ _ _ _ _ _ _ _ 0x12 demo_expr (demo_about_to_run (5 :: repeat 0 0x1ff ++ [8; 9]) (code 0x12 demo_expr) 1 2 3 eq_refl
    ltac:(repeat split; vm_compute; reflexivity))) as (k & n & cpu' & X' & P' & f' & Rn & (_ & _ & Er & _) & _).
  - vm_compute. discriminate.
  - split; [unfold page_one; lia|]. intros q [->|Hq]; apply demo_variable; unfold page_one in *; lia.
  - unfold demo_expr, good_expr. cbn [reads depth].
    repeat match goal with |- _ /\ _ => split | |- forall k, _ -> _ => intros end; try (apply R; lia); lia.
  - exists k, n, cpu'. split; [exact Rn|]. split.
    + change (rA (regs_of cpu') = Z.lxor 17 4). rewrite Er. vm_compute. reflexivity.
    + change (rS (regs_of cpu') = 0xff). rewrite Er. reflexivity.
Qed.
(** While 1 do nothing. *)
Lemma idle_never s s' : ~ ends (While (Const 1) Skip) s s'.
Proof.
  intros E. remember (While (Const 1) Skip) as c eqn:Ec. induction E; try discriminate; injection Ec as -> ->.
  - discriminate.
  - apply IHE2. reflexivity.
Qed.
Example C111_forever_case : forall k, exists n cpu', steps Debug k n (machine [] (compile 0x12 0x8000 (While (Const 1) Skip)) 1 2 3 0xff ps0) cpu' /\
  0x8000 <= reg_pc cpu' < 0x800c.
Proof.
  apply (C111_forever memory _ Debug _ _ _ _ _ _ _ _ _ _ 0x12 (While (Const 1) Skip) (demo_about_to_run [] (compile 0x12 0x8000 (While (Const 1) Skip)) 1 2 3 eq_refl
    ltac:(repeat split; vm_compute; reflexivity))).
  - split; [unfold page_one; lia|]. intros q [->|Hq]; apply demo_variable; unfold page_one in *; lia.
  - unfold good_cmd, good_expr. cbn [within reads depth]. repeat split; lia.
  - apply idle_never.
Qed.

Print Assumptions C110_expression.
Print Assumptions C111_ends.
Print Assumptions C111_forever.
Print Assumptions C111_only_then.
Print Assumptions C111_one_meaning.
Print Assumptions C111_sum.
