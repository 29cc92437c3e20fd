(** C129: translated programs compute on the documented 6502 what they compute
    on this emulator. *)
From Verif Require Import Base Arith ModelMap ModelRegs6502 ModelCpu6502 ModelIsa6502 ModelStep ModelRun6502 SpecMap Link6502 ProofRun6502 ProofBus
  SpecInstr ProofInstr Demo6502 Properties6502Mem Spec6502 SpecDatasheet SpecProgram ProofProgram PropertiesProgram SpecRoutines ProofRoutines PropertiesRoutines
  SpecLanguage ProofLanguage SpecProcedures ProofProcedures PropertiesProcedures SpecPortable ProofPortable.

(** ** From the proofs to the documented machine *)
Lemma stored_put l : forall f, stored f l = fold_left put l f.
Proof. induction l as [|w l IH]; intros f; [reflexivity|]. apply IH. Qed.
Lemma dexec_step ram c r f r1 f1 : dexec ram c r f r1 f1 -> ps_decimal (rP r) = false ->
  ds_step (r, f) c (r1, f1) /\ ~ ds_decimal (r, f) /\ ds_stores_in ram (r, f) /\ ps_decimal (rP r1) = false.
Proof.
  intros (e & E & F & HD & <- & <- & <-) Hd. split; [|split; [|split]].
  - exists e. split; [exact E|]. split; [reflexivity|]. cbn [snd]. rewrite stored_put. reflexivity.
  - intros (K & _). cbn [fst] in K. congruence.
  - intros e' E'. rewrite E in E'. injection E' as <-. exact F.
  - rewrite HD. exact Hd.
Qed.
Lemma dstays_chip ram lo hi k t r f r' f' : dstays ram lo hi k t r f r' f' -> ps_decimal (rP r) = false -> chip ram k t (r, f) (r', f').
Proof.
  induction 1 as [r f|k c t r f r1 f1 r' f' Hp E X IH]; intros Hd; [constructor|].
  destruct (dexec_step _ _ _ _ _ _ E Hd) as (H1 & H2 & H3 & H4). econstructor; eauto.
Qed.
Lemma chip_det ram k : forall t st st1, chip ram k t st st1 -> forall ram' t' st2, chip ram' k t' st st2 -> t = t' /\ st1 = st2.
Proof.
  intros t st st1 H. induction H as [st|k t c st sa sb Hs _ _ _ IH]; intros ram' t' st2 K; inversion K as [|k0 t0 c0 s0 sc sd Hs' _ _ K']; subst; [auto|].
  destruct Hs as (e & E & -> & ->). destruct Hs' as (e' & E' & -> & ->). rewrite E in E'. injection E' as <-.
  destruct (IH _ _ _ K') as [-> ->]. auto.
Qed.

Section Programs.
Context (ram : Z -> Prop) (A X Y S L : Z) (P : processor_status) (f : Z -> Z) (t : Z) (procs : list stmt) (main : stmt).
Notation at_ := (place (L + 3) procs).
Lemma chip_performing : chip_about_to_perform ram A X Y S L P f t procs main ->
  let hi := L + len (image t L procs main) in
  0 <= L /\ hi <= 0xfffe /\ ~ page_one t /\
  (forall q, scratch t q -> u16 q /\ ram q /\ ~ (L <= q < hi)) /\ state_ok t L hi f f f /\ 0 <= S < 256 /\
  settled ram t L hi f procs at_ (entry L procs) main /\
  (forall k body, nth_error procs k = Some body ->
    settled ram t L hi f procs at_ (at_ k) body /\ f (at_ k + size body) = 0x60 /\ at_ k + size body + 1 <= hi) /\
  dstays ram L hi 1 3 (mkRegs A X Y S L P) f (mkRegs A X Y S (entry L procs) P) f.
Proof.
  intros (H0 & HL & HS & By & _ & B & (Ht & Hv) & G) hi. inversion G as [|? ? Gm Gp]; subst.
  pose proof (image_len L t procs main) as El. fold hi in El. pose proof (size_nonneg main) as Sm.
  unfold image in B. cbv zeta in B. apply bytes_from_app in B. destruct B as [Bj B]. cbn [length] in B. replace (L + Z.of_nat 3) with (L + 3) in B by lia.
  apply bytes_from_app in B. destruct B as [Bp Bm]. fold (len (emit_all at_ t (L + 3) procs)) in Bm.
  pose proof (emit_all_entry at_ t procs (L + 3)) as Ee. fold (entry L procs) in Ee. rewrite Ee in Bm.
  pose proof (len_nonneg (emit_all at_ t (L + 3) procs)) as Hn.
  split; [exact H0|]. split; [exact HL|]. split; [exact Ht|]. split; [exact Hv|].
  split; [split; [intros q _; reflexivity|]; split; [intros q _; reflexivity|exact By]|].
  split; [exact HS|]. split; [|split].
  - split; [exact Bm|]. split; [lia|]. split; [lia|exact Gm].
  - intros k body Ek. destruct (procs_placed at_ t f procs (L + 3) Bp k body Ek) as (K1 & K2 & K3 & K4).
    split; [|split; [exact K2|lia]]. split; [exact K1|]. split; [lia|]. split; [lia|].
    rewrite Forall_forall in Gp. exact (Gp body (nth_error_In _ _ Ek)).
  - apply (djump_within ram t L hi f H0 HL Hv (entry L procs) L f); [intros q _; reflexivity|exact Bj|lia|lia].
Qed.
End Programs.
(** Whatever the emulator can start on, the documented machine can, in binary
    mode. *)
Lemma chip_ready D (dev : Device D) p I ram (cpu : mos6502 D) A X Y S L P f t procs main :
  about_to_perform p I ram cpu A X Y S L P f t procs main -> ps_decimal P = false ->
  chip_about_to_perform ram A X Y S L P f t procs main.
Proof.
  intros ((Hb & M & H0 & _ & B) & HL & Hw & G) Hd. pose proof (machine_bytes p I ram cpu _ f Hb M) as By.
  split; [exact H0|]. split; [exact HL|]. split; [destruct M as (_ & (_ & _ & _ & K & _) & _); exact K|]. split; [exact By|].
  split; [exact Hd|]. split; [exact B|]. split; [exact Hw|exact G].
Qed.

(** ** Programs that end *)
(** The documented machine comes to the end of the code, in as many cycles as
    the language says for it, with the final values in memory. S and Y are as
    before, and of the stack at most [d] bytes from S downwards have changed. *)
Theorem C129_time : forall ram A X Y S L P f t procs main d s' n,
  chip_about_to_perform ram A X Y S L P f t procs main -> d <= 256 -> image_lasts chip_onward procs d L main f s' n ->
  exists k A' X' P' f', chip ram k n (mkRegs A X Y S L P, f) (mkRegs A' X' Y S (L + len (image t L procs main)) P', f') /\
    (forall q, ~ scratch t q -> f' q = s' q) /\
    (forall q, page_one q -> (forall j, 0 <= j < d -> q <> stack (S - j)) -> f' q = f q).
Proof.
  intros ram A X Y S L P f t procs main d s' n Ha Hd (m & En & E). pose proof Ha as (_ & _ & _ & _ & HD & _).
  destruct (chip_performing ram A X Y S L P f t procs main Ha) as (H0 & H1 & Ht & Hv & St & HS & Pl & Hp & J).
  destruct (dstmt_lasts ram t L _ f procs _ H0 H1 Hv Ht Hp d _ main f s' m E Hd Pl f A X Y S P St HS) as (k & A' & X' & P' & f' & G & (Ca & _) & K).
  rewrite <- (image_len L t procs main) in G.
  pose proof (dstays_chip _ _ _ _ _ _ _ _ _ (dstays_app _ _ _ _ _ _ _ _ _ J _ _ _ _ G) HD) as Rn. rewrite <- En in Rn.
  eexists _, A', X', P', f'. split; [exact Rn|]. split; [intros q Hq; apply Ca; exact Hq|].
  intros q Hq Hj. apply K; [exact Hq|]. intros (j & Hj1 & E'). exact (Hj j Hj1 E').
Qed.
(** Every program that ends has such a number of cycles. *)
Theorem C129_some_time : forall on procs d L main s s', does procs d main s s' -> exists n, image_lasts on procs d L main s s' n.
Proof.
  intros on procs d L main s s' E. destruct (does_lasts on procs (place (L + 3) procs) d main s s' E (entry L procs)) as (m & T).
  exists (3 + m)%nat, m. split; [reflexivity|exact T].
Qed.
(** With the cost of passing a test on the emulator it is the number of C116. *)
Theorem C129_emulator_time : forall procs d L main s s' n,
  image_lasts onward procs d L main s s' n <-> image_takes procs d L main s s' n.
Proof. intros procs d L main s s' n. split; intros (m & E & T); exists m; (split; [exact E|]); apply lasts_takes; exact T. Qed.
Lemma lasts_does on procs at_ d L c s s' n : lasts on procs at_ d L c s s' n -> does procs d c s s'.
Proof.
  induction 1; try (constructor; assumption).
  - econstructor; eassumption.
  - constructor; [assumption|]. replace (value s e =? 0) with false by lia. assumption.
  - constructor; [assumption|]. replace (value s e =? 0) with true by lia. assumption.
  - eapply does_again; eassumption.
  - eapply does_perform; eassumption.
Qed.
Lemma lasts_less on on' procs at_ : (forall B, (on B <= on' B)%nat) -> forall d L c s s1 n1, lasts on procs at_ d L c s s1 n1 ->
  forall d' s2 n2, lasts on' procs at_ d' L c s s2 n2 -> (n1 <= n2)%nat.
Proof.
  intros Ho. induction 1 as [d L s|d L v e s De|d L a i e s De Di|d L c1 c2 s s1 s2 m1 m2 E1 IH1 E2 IH2|d L e c1 c2 s s' m De En E IH|d L e c1 c2 s s' m De Ez E IH|d L e c s De Ez|d L e c s s1 s2 m1 m2 De En E1 IH1 E2 IH2|d L k body s s' m Ek Hd E IH];
    intros d' s0 n0 K; inversion K; subst; try contradiction; try lia.
  - match goal with A : lasts on' procs at_ d' L c1 s ?s3 _ |- _ =>
      pose proof (C114_one_meaning _ _ _ _ _ (lasts_does _ _ _ _ _ _ _ _ _ E1) _ _ (lasts_does _ _ _ _ _ _ _ _ _ A)); subst s3 end.
    apply Nat.add_le_mono; [eapply IH1|eapply IH2]; eassumption.
  - match goal with A : lasts on' _ _ _ _ c1 s _ _ |- _ => pose proof (IH _ _ _ A) end. pose proof (Ho (L + width e)). lia.
  - match goal with A : lasts on' _ _ _ _ c2 s _ _ |- _ => pose proof (IH _ _ _ A) end. lia.
  - match goal with A : lasts on' procs at_ d' _ c s ?s3 _ |- _ =>
      pose proof (C114_one_meaning _ _ _ _ _ (lasts_does _ _ _ _ _ _ _ _ _ E1) _ _ (lasts_does _ _ _ _ _ _ _ _ _ A)); subst s3; pose proof (IH1 _ _ _ A) end.
    match goal with A : lasts on' _ _ _ _ (Again e c) _ _ _ |- _ => pose proof (IH2 _ _ _ A) end. pose proof (Ho (L + width e)). lia.
  - match goal with A : nth_error procs k = Some ?b |- _ => rewrite Ek in A; injection A as <- end.
    match goal with A : lasts on' _ _ _ _ body s _ _ |- _ => pose proof (IH _ _ _ A) end. lia.
Qed.
(** The emulator never needs fewer cycles than the documented machine. *)
Theorem C129_not_fewer : forall procs d L main s s1 s2 n m,
  image_takes procs d L main s s1 n -> image_lasts chip_onward procs d L main s s2 m -> (m <= n)%nat.
Proof.
  intros procs d L main s s1 s2 n m (n0 & -> & T1) (m0 & -> & T2). apply lasts_takes in T1.
  pose proof (lasts_less chip_onward onward _ _ ltac:(intros B; unfold chip_onward, onward; destruct (_ =? _), (_ =? _); lia) _ _ _ _ _ _ T2 _ _ _ T1). lia.
Qed.

(** The same program, started in the same state on both: both come to the end
    of the code with the same memory but for the scratch byte and the stack. *)
Theorem C129_same_result : forall D (dev : Device D) p I ram (cpu : mos6502 D) A X Y S L P f t procs main d s',
  about_to_perform p I ram cpu A X Y S L P f t procs main -> ps_decimal P = false -> d <= 256 -> does procs d main f s' ->
  exists k1 n1 cpu' k2 n2 r' f', runs p k1 n1 cpu cpu' /\ chip ram k2 n2 (mkRegs A X Y S L P, f) (r', f') /\ (n2 <= n1)%nat /\
    rPC (regs_of cpu') = L + len (image t L procs main) /\ rPC r' = L + len (image t L procs main) /\
    rS (regs_of cpu') = S /\ rS r' = S /\ rY (regs_of cpu') = Y /\ rY r' = Y /\
    forall q, u16 q -> ~ scratch t q -> peek p (amap cpu') q = s' q /\ f' q = s' q.
Proof.
  intros D dev p I ram cpu A X Y S L P f t procs main d s' Ha HD Hd E.
  destruct (proj1 (C116_some_time procs d L main f s') E) as (n1 & T1). destruct (C129_some_time chip_onward procs d L main f s' E) as (n2 & T2).
  destruct (C116_time D dev p I ram cpu A X Y S L P f t procs main d s' n1 Ha Hd T1) as (k1 & cpu' & A1 & X1 & P1 & f1 & Rn & (_ & _ & Er & Ef) & Fr1 & _).
  destruct (C129_time ram A X Y S L P f t procs main d s' n2 (chip_ready _ _ _ _ _ _ _ _ _ _ _ _ _ _ _ _ Ha HD) Hd T2) as (k2 & A2 & X2 & P2 & f2 & Ch & Fr2 & _).
  exists k1, n1, cpu', k2, n2. eexists _, f2. split; [exact Rn|]. split; [exact Ch|]. split; [exact (C129_not_fewer _ _ _ _ _ _ _ _ _ T1 T2)|].
  rewrite Er. cbn [rPC rS rY]. repeat (split; [reflexivity|]). intros q Uq Nq. rewrite (Ef q Uq), Fr1, Fr2 by exact Nq. auto.
Qed.

(** ** Programs that do not end *)
(** A program that neither ends nor overflows: the documented machine, too,
    never leaves the code. *)
Theorem C129_forever : forall ram A X Y S L P f t procs main d,
  chip_about_to_perform ram A X Y S L P f t procs main -> d <= 256 -> (forall s', ~ does procs d main f s') -> ~ overflows procs d main f ->
  forall k, exists n st', chip ram k n (mkRegs A X Y S L P, f) st' /\ L <= rPC (fst st') < L + len (image t L procs main).
Proof.
  intros ram A X Y S L P f t procs main d Ha Hd Ne No k. pose proof Ha as (_ & _ & _ & _ & HD & _).
  destruct (chip_performing ram A X Y S L P f t procs main Ha) as (H0 & H1 & Ht & Hv & St & HS & Pl & Hp & J).
  destruct (dstill_or_does ram t L _ f procs _ H0 H1 Hv Ht Hp k main d _ f Hd Pl) as [[s' E]|[O|N]]; [destruct (Ne s' E)|contradiction|].
  destruct (N f A X Y S P St HS) as (n & r' & f' & G). pose proof (dstays_app _ _ _ _ _ _ _ _ _ J _ _ _ _ G) as G0.
  destruct (dstays_last _ _ _ _ _ _ _ _ _ G0) as (n1 & r1 & f1 & G1 & Hpc).
  exists n1, (r1, f1). split; [exact (dstays_chip _ _ _ _ _ _ _ _ _ G1 HD)|exact Hpc].
Qed.
(** So as long as there is room on the stack the emulator comes to the end of
    the code if and only if the documented machine does. *)
Theorem C129_both_or_neither : forall D (dev : Device D) p I ram (cpu : mos6502 D) A X Y S L P f t procs main d,
  about_to_perform p I ram cpu A X Y S L P f t procs main -> ps_decimal P = false -> d <= 256 -> ~ overflows procs d main f ->
  ((exists k n cpu', steps p k n cpu cpu' /\ rPC (regs_of cpu') = L + len (image t L procs main)) <->
   (exists k n st', chip ram k n (mkRegs A X Y S L P, f) st' /\ rPC (fst st') = L + len (image t L procs main))).
Proof.
  intros D dev p I ram cpu A X Y S L P f t procs main d Ha HD Hd No. pose proof (chip_ready _ _ _ _ _ _ _ _ _ _ _ _ _ _ _ _ Ha HD) as Hc. split.
  - intros (k & n & cpu' & Hs & Hpc). destruct (C115_only_then _ _ _ _ _ _ _ _ _ _ _ _ _ _ _ _ d _ _ _ Ha Hd Hs Hpc) as [[s' E]|O]; [|contradiction].
    destruct (C129_some_time chip_onward procs d L main f s' E) as (n2 & T2).
    destruct (C129_time ram A X Y S L P f t procs main d s' n2 Hc Hd T2) as (k2 & A2 & X2 & P2 & f2 & Ch & _).
    eexists k2, n2, _. split; [exact Ch|reflexivity].
  - intros (k & n & st' & Ch & Hpc). assert (H : exists s', does procs d main f s').
    { destruct (chip_performing ram A X Y S L P f t procs main Hc) as (H0 & H1 & Ht & Hv & St & HS & Pl & Hp & J).
      destruct (dstill_or_does ram t L _ f procs _ H0 H1 Hv Ht Hp k main d _ f Hd Pl) as [E|[O|N]]; [exact E|contradiction|exfalso].
      destruct (N f A X Y S P St HS) as (n0 & r' & f' & G). pose proof (dstays_app _ _ _ _ _ _ _ _ _ J _ _ _ _ G) as G0.
      destruct (dstays_last _ _ _ _ _ _ _ _ _ G0) as (n1 & r1 & f1 & G1 & Hq).
      destruct (chip_det _ _ _ _ _ (dstays_chip _ _ _ _ _ _ _ _ _ G1 HD) _ _ _ Ch) as [_ <-]. cbn [fst] in Hpc. lia. }
    destruct H as (s' & E). destruct (C114_ends D dev p I ram cpu A X Y S L P f t procs main d s' Ha Hd E) as (k1 & n1 & cpu' & A' & X' & P' & f' & (Hs & _) & (_ & _ & Er & _) & _).
    exists k1, n1, cpu'. split; [exact Hs|]. rewrite Er. reflexivity.
Qed.

(** ** A concrete case *)
(** The towers of Hanoi (C114) with ten discs: 1023 moves, 255 modulo 256, on
    both. Each of the 1023 tests passed costs the emulator four cycles more. *)
Lemma hanoi_ready : about_to_perform Debug (plain_with (fun b => 0 <= b <= 0x3ff)) (fun b => 0 <= b <= 0x3ff)
  (machine (repeat 0 0x10 ++ [10; 0]) (image 0x12 0x8000 [hanoi] (Perform 0)) 1 2 3 0xff ps0) 1 2 3 0xff 0x8000 ps0
  (bytes_at Debug (repeat 0 0x10 ++ [10; 0]) (image 0x12 0x8000 [hanoi] (Perform 0)) 1 2 3 0xff ps0) 0x12 [hanoi] (Perform 0).
Proof.
  split; [apply demo_about_to_run; [reflexivity|repeat split; vm_compute; reflexivity]|]. split; [vm_compute; discriminate|].
  split; [split; [unfold page_one; lia|intros q [->|Hq]; apply demo_variable; unfold page_one in *; lia]|].
  assert (R : forall q, 0 <= q < 0x200 -> q <> 0x12 -> ~ (0x100 <= q <= 0x1ff) -> u16 q /\ ~ scratch 0x12 q).
  { intros q H1 H2 H3. split; [unfold u16; lia|]. intros [->|K]; [lia|exact (H3 K)]. }
  constructor; [unfold good_stmt; cbn [proper length]; lia|]. constructor; [|constructor].
  unfold good_stmt, hanoi. cbn [proper reads length].
  repeat match goal with |- _ /\ _ => split | |- forall k, _ -> _ => intros end; try (apply R; lia); try (apply demo_variable; lia); try exact Logic.I; lia.
Qed.
Example C129_case : exists k1 n1 cpu' k2 n2 r' f',
  runs Debug k1 n1 (machine (repeat 0 0x10 ++ [10; 0]) (image 0x12 0x8000 [hanoi] (Perform 0)) 1 2 3 0xff ps0) cpu' /\
  chip (fun b => 0 <= b <= 0x3ff) k2 n2
    (mkRegs 1 2 3 0xff 0x8000 ps0, bytes_at Debug (repeat 0 0x10 ++ [10; 0]) (image 0x12 0x8000 [hanoi] (Perform 0)) 1 2 3 0xff ps0) (r', f') /\
  peek Debug (amap cpu') 0x11 = 255 /\ f' 0x11 = 255.
Proof.
  set (f := bytes_at Debug (repeat 0 0x10 ++ [10; 0]) (image 0x12 0x8000 [hanoi] (Perform 0)) 1 2 3 0xff ps0).
  assert (E0 : f 0x10 = Z.of_nat 10) by (vm_compute; reflexivity). assert (E1 : f 0x11 = 0) by (vm_compute; reflexivity).
  destruct (hanoi_takes (place (0x8000 + 3) [hanoi]) 10 f 254 ltac:(lia) ltac:(lia) E0 ltac:(lia)) as (s' & m & E & _ & _ & V & _).
  apply takes_does in E. assert (E' : does [hanoi] 256 (Perform 0) f s') by (eapply does_perform; [reflexivity|lia|exact E]).
  destruct (C129_same_result _ _ _ _ _ _ _ _ _ _ _ _ _ _ _ _ 256 s' hanoi_ready eq_refl ltac:(lia) E')
    as (k1 & n1 & cpu' & k2 & n2 & r' & f' & H1 & H2 & _ & _ & _ & _ & _ & _ & _ & H3).
  exists k1, n1, cpu', k2, n2, r', f'. split; [exact H1|]. split; [exact H2|].
  destruct (H3 0x11 ltac:(unfold u16; lia) ltac:(intros [K|K]; unfold page_one in *; lia)) as [-> ->]. rewrite V, E1. split; reflexivity.
Qed.

Print Assumptions C129_time.
Print Assumptions C129_some_time.
Print Assumptions C129_emulator_time.
Print Assumptions C129_not_fewer.
Print Assumptions C129_same_result.
Print Assumptions C129_forever.
Print Assumptions C129_both_or_neither.
