(** The writes of translated programs on the specification machine. *)
From Verif Require Import Base Arith ModelMap ModelRegs6502 ModelIsa6502 Link6502 Spec6502 SpecProgram ProofProgram SpecRoutines ProofRoutines SpecLanguage ProofLanguage
  SpecProcedures ProofProcedures SpecOutput.

(** [k] instructions within [lo, hi) of [n] cycles, whose visible writes are [l];
    no instruction makes more than one. *)
Inductive logs (p : profile) (ram : Z -> Prop) (t lo hi : Z) : nat -> nat -> registers -> (Z -> Z) -> registers -> (Z -> Z) -> list (Z * Z) -> Prop :=
| logs_done r f : logs p ram t lo hi 0 0 r f r f []
| logs_step k n r f e r' f' l : lo <= rPC r < hi -> step p r f = Some e -> Forall (fun w => ram (fst w)) (e_stores e) ->
    (length (filter (visible t) (e_stores e)) <= 1)%nat ->
    logs p ram t lo hi k n (e_regs e) (stored f (e_stores e)) r' f' l ->
    logs p ram t lo hi (S k) (e_cycles e + n) r f r' f' (filter (visible t) (e_stores e) ++ l).

Lemma hidden t l : Forall (fun w => scratch t (fst w)) l -> filter (visible t) l = [].
Proof.
  induction 1 as [|w l H _ IH]; [reflexivity|]. cbn [filter]. replace (visible t w) with false; [exact IH|].
  unfold visible. destruct H as [->|[H1 H2]]; [rewrite Z.eqb_refl; reflexivity|]. replace ((0x100 <=? fst w) && (fst w <? 0x200)) with true by lia.
  rewrite orb_true_r. reflexivity.
Qed.
Lemma seen t a v : ~ scratch t a -> filter (visible t) [(a, v)] = [(a, v)].
Proof.
  intros H. cbn [filter]. replace (visible t (a, v)) with true; [reflexivity|]. unfold visible. cbn [fst].
  assert (a <> t) by (intros ->; apply H; left; reflexivity). assert (~ page_one a) by (intros K; apply H; right; exact K). unfold page_one in *.
  replace (a =? t) with false by lia. replace ((0x100 <=? a) && (a <? 0x200)) with false by lia. reflexivity.
Qed.

Section Logs.
Context (p : profile) (ram : Z -> Prop) (t lo hi : Z).
Notation lg := (logs p ram t lo hi).
Lemma logs_app k n r f r1 f1 l : lg k n r f r1 f1 l -> forall k' n' r2 f2 l', lg k' n' r1 f1 r2 f2 l' -> lg (k + k') (n + n') r f r2 f2 (l ++ l').
Proof.
  induction 1 as [r f|k n r f e r1 f1 l Hp E F Le X IH]; intros k' n' r2 f2 l' Y; [exact Y|].
  rewrite <- Nat.add_assoc, <- app_assoc. eapply logs_step; eauto.
Qed.
Lemma logs_cost k n n' r f r' f' l : lg k n r f r' f' l -> n = n' -> lg k n' r f r' f' l.
Proof. intros G <-. exact G. Qed.
Lemma logs_one r f e l : lo <= rPC r < hi -> step p r f = Some e -> Forall (fun w => ram (fst w)) (e_stores e) ->
  filter (visible t) (e_stores e) = l -> (length l <= 1)%nat -> lg 1 (e_cycles e) r f (e_regs e) (stored f (e_stores e)) l.
Proof.
  intros H0 E F <- Le. rewrite <- (app_nil_r (filter (visible t) (e_stores e))). rewrite <- (Nat.add_0_r (e_cycles e)).
  eapply logs_step; try eassumption. constructor.
Qed.
Lemma stays_logs k n r f r' f' : (forall q, scratch t q -> ram q) -> stays p (scratch t) lo hi k n r f r' f' -> lg k n r f r' f' [].
Proof.
  intros Hs. induction 1 as [r f|k n r f e r' f' Hp E F X IH]; [constructor|].
  pose proof (hidden _ _ F) as Hn. change (@nil (Z * Z)) with (@nil (Z * Z) ++ []). rewrite <- Hn at 1. eapply logs_step; try eassumption.
  - eapply Forall_impl; [|exact F]. intros w Hw. apply Hs. exact Hw.
  - rewrite Hn. cbn [length]. lia.
Qed.
End Logs.

Section Language.
Context (p : profile) (ram : Z -> Prop) (t lo hi : Z) (text : Z -> Z) (procs : list stmt) (at_ : nat -> Z).
Context (Hlo : 0 <= lo) (Hhi : hi <= 0xfffe) (Hs : forall q, scratch t q -> u16 q /\ ram q /\ ~ (lo <= q < hi)) (Ht1 : ~ page_one t).
Notation hs := (scratch t).
Notation go := (stays p hs lo hi).
Notation lg := (logs p ram t lo hi).
Notation Q := (fun q => u16 q /\ ~ scratch t q).
Notation W := (fun q => (u16 q /\ ram q /\ ~ (lo <= q < hi)) /\ ~ scratch t q).
Notation ok := (state_ok t lo hi text).
Ltac byte := match goal with
  | I : intact lo hi text ?f |- ?f ?q = ?b => rewrite (I q) by lia;
      match goal with B : text ?q' = b |- _ => replace q with q' by lia; exact B end end.
Ltac one H := pose proof (stays_one _ _ lo hi _ _ _ _ _ H ltac:(cbn [rPC]; lia)).

Lemma Hs' q : scratch t q -> u16 q /\ scratch t q /\ ~ (lo <= q < hi).
Proof. intros H. destruct (Hs q H) as (A & _ & B). auto. Qed.
Lemma quiet k n r f r' f' : go k n r f r' f' -> lg k n r f r' f' [].
Proof. apply stays_logs. intros q H. apply (Hs q H). Qed.

Notation st_page := (ProofProcedures.stack_page hs t lo hi text Hs').
Notation k_push := (ProofProcedures.kept_push hs t lo hi text Hs').
Notation k_deeper := (ProofProcedures.kept_deeper hs t lo hi text Hs').
(** The two instructions whose writes are visible. *)
Lemma l_sta A X Y S PC P f a : lo <= PC < hi -> 0 <= PC <= 0xfffc -> f PC = 0x8d -> f (PC + 1) = low a -> f (PC + 2) = high a -> ram a -> ~ scratch t a ->
  lg 1 4 (mkRegs A X Y S PC P) f (mkRegs A X Y S (PC + 3) P) (store1 f (a, A)) [(a, A)].
Proof.
  intros H0 H1 H2 H3 H4 Hr Hn.
  assert (E : step p (mkRegs A X Y S PC P) f = Some (mkEffect (mkRegs A X Y S (PC + 3) P) [(a, A)] 4)).
  { rewrite (step_at p (mkRegs A X Y S PC P) f 0x8d Sta Absolute 4 ltac:(cbn [rPC]; lia) H2 eq_refl). cbn [rPC]. rewrite H3, H4. unfold execute, store_op, operand_address.
    rewrite (word_low_high ram f). assert (Ep : (PC + 3) mod 65536 = PC + 3) by (apply Z.mod_small; lia). rewrite <- Ep. reflexivity. }
  exact (logs_one p ram t lo hi (mkRegs A X Y S PC P) f _ [(a, A)] H0 E (Forall_cons (a, A) Hr (Forall_nil _)) (seen t (a) A Hn) (le_n 1)).
Qed.
Lemma l_sta_x A X Y S PC P f a : lo <= PC < hi -> 0 <= PC <= 0xfffc -> f PC = 0x9d -> f (PC + 1) = low a -> f (PC + 2) = high a -> 0 <= a + X <= 0xffff ->
  ram (a + X) -> ~ scratch t (a + X) ->
  lg 1 5 (mkRegs A X Y S PC P) f (mkRegs A X Y S (PC + 3) P) (store1 f (a + X, A)) [(a + X, A)].
Proof.
  intros H0 H1 H2 H3 H4 H5 Hr Hn.
  assert (E : step p (mkRegs A X Y S PC P) f = Some (mkEffect (mkRegs A X Y S (PC + 3) P) [(a + X, A)] 5)).
  { rewrite (step_at p (mkRegs A X Y S PC P) f 0x9d Sta AbsoluteIndexedWithX 5 ltac:(cbn [rPC]; lia) H2 eq_refl). cbn [rPC]. rewrite H3, H4. unfold execute, store_op, operand_address.
    rewrite (word_low_high ram f). cbn [rX rA]. rewrite (Z.mod_small (a + X)) by lia. assert (Ep : (PC + 3) mod 65536 = PC + 3) by (apply Z.mod_small; lia). rewrite <- Ep. reflexivity. }
  exact (logs_one p ram t lo hi (mkRegs A X Y S PC P) f _ [(a + X, A)] H0 E (Forall_cons (a + X, A) Hr (Forall_nil _)) (seen t (a + X) A Hn) (le_n 1)).
Qed.

Notation settled := (settled ram t lo hi text procs at_).
Context (Hprocs : forall k body, nth_error procs k = Some body -> settled (at_ k) body /\ text (at_ k + size body) = 0x60 /\ at_ k + size body + 1 <= hi).
Notation expr_in := (expr_within p hs t lo hi text at_ Hlo Hhi Hs' Ht1).
Notation test_in := (test_within p hs t lo hi text at_ Hlo Hhi Hs' Ht1).
Notation jump_in := (jump_within p hs t lo hi text Hlo Hhi Hs').

Lemma call_in k body L s f d : nth_error procs k = Some body -> ok s f -> settled L (Perform k) -> 2 <= d <= 256 ->
  forall A X Y S P, 0 <= S < 256 -> exists f', go 1 6 (mkRegs A X Y S L P) f (mkRegs A X Y ((S - 2) mod 256) (at_ k) P) f' /\ ok s f' /\ kept S d f f' /\
    f' (stack S) = high (L + 2) /\ f' (stack (S - 1)) = low (L + 2).
Proof.
  intros Ek St (B & H0 & H1 & _) Hd A X Y S P HS. change (size (Perform k)) with 3 in H1. destruct B as (B0 & B1 & B2 & _). pose proof St as (_ & Hi & _).
  pose proof (i_jsr p hs A X Y S L P f (at_ k) ltac:(lia) ltac:(byte) ltac:(byte) ltac:(byte) (or_intror (st_page _)) (or_intror (st_page _))) as I1. one I1.
  assert (V1 : 0 <= high (L + 2) < 256) by (unfold high; lia). assert (V2 : 0 <= low (L + 2) < 256) by (unfold low; lia).
  eexists. split; [eassumption|]. split; [|split; [|split]].
  - apply (ok_push hs t lo hi text Hs'); [apply st_page| |exact V2]. apply (ok_push hs t lo hi text Hs'); [apply st_page|exact St|exact V1].
  - eapply kept_trans; [apply k_push; lia|]. apply (k_deeper S d 1); [lia|].
    replace (stack (S - 1)) with (stack ((S - 1) mod 256)) by (unfold stack; lia). apply k_push. lia.
  - rewrite store1_other by (unfold stack; lia). apply store1_same.
  - apply store1_same.
Qed.
Lemma return_in k body L s f : nth_error procs k = Some body -> ok s f -> settled L (Perform k) ->
  forall A X Y S P, 0 <= S < 256 -> f (stack S) = high (L + 2) -> f (stack (S - 1)) = low (L + 2) ->
  go 1 6 (mkRegs A X Y ((S - 2) mod 256) (at_ k + size body) P) f (mkRegs A X Y S (L + 3) P) f.
Proof.
  intros Ek St (_ & H0 & H1 & _) A X Y S P HS E1 E2. change (size (Perform k)) with 3 in H1. destruct (Hprocs k body Ek) as ((_ & K0 & _) & B0 & K1).
  pose proof St as (_ & Hi & _). pose proof (size_nonneg body).
  pose proof (i_rts p hs A X Y ((S - 2) mod 256) (at_ k + size body) P f (L + 2) ltac:(lia) ltac:(byte)) as I1.
  replace (stack ((S - 2) mod 256 + 1)) with (stack (S - 1)) in I1 by (unfold stack; lia).
  replace (stack ((S - 2) mod 256 + 2)) with (stack S) in I1 by (unfold stack; lia).
  replace (((S - 2) mod 256 + 2) mod 256) with S in I1 by lia.
  specialize (I1 E2 E1 ltac:(lia)). one I1. replace (L + 2 + 1) with (L + 3) in * by lia. assumption.
Qed.

(** ** Statements that end *)
Definition writes (d L : Z) (c : stmt) (s s' : Z -> Z) (n : nat) (l : list (Z * Z)) : Prop := forall f A X Y S P, ok s f -> 0 <= S < 256 ->
  exists k A' X' P' f', lg k n (mkRegs A X Y S L P) f (mkRegs A' X' Y S (L + size c) P') f' l /\ ok s' f' /\ kept S d f f'.

Lemma stmt_writes d c s s' l : tells procs d c s s' l -> d <= 256 -> forall L, settled L c ->
  exists n, takes procs at_ d L c s s' n /\ writes d L c s s' n l.
Proof.
  induction 1 as [d s|d v e s De|d a i e s De Di|d c1 c2 s s1 s2 l1 l2 E1 IH1 E2 IH2|d e c1 c2 s s' l De E IH|d e c s De Ez|d e c s s1 s2 l1 l2 De En E1 IH1 E2 IH2|d k body s s' l Ek Hd E IH];
    intros Hd2 L Pl.
  - exists 0%nat. split; [constructor|]. intros f A X Y S P St HS. exists 0%nat, A, X, P, f. change (size Pass) with 0. replace (L + 0) with L by lia.
    split; [constructor|]. split; [exact St|apply kept_refl].
  - exists (time s e + 4)%nat. split; [constructor; exact De|]. intros f A X Y S P St HS.
    destruct Pl as (B & H0 & H1 & Wv & R). cbn [emit] in B. unfold size in *. cbn [emit] in *. rewrite len_app in *. change (len [_; _; _]) with 3 in *.
    replace (len (code 0 e)) with (len (code t e)) in * by (unfold len; f_equal; apply code_length).
    apply bytes_from_app in B. fold (len (code t e)) in B. destruct B as [Be (B0 & B1 & B2 & _)]. pose proof (len_nonneg (code t e)) as Hl.
    destruct (expr_in e L s f d St Be H0 ltac:(lia) R De Hd2 A X Y S P HS) as (k & n & X' & P' & f' & [_ ->] & G & Zf & St' & K & Vb).
    set (ln := len (code t e)) in *. pose proof St' as (_ & Hi' & _). pose proof Wv as ((_ & Rv & _) & Nv).
    pose proof (l_sta (value s e) X' Y S (L + ln) P' f' v ltac:(lia) ltac:(lia) ltac:(byte) ltac:(byte) ltac:(byte) Rv Nv) as G2.
    eexists (k + 1)%nat, _, X', P', _. split; [replace (L + (ln + 3)) with (L + ln + 3) by lia; exact (logs_app _ _ _ _ _ _ _ _ _ _ _ _ (quiet _ _ _ _ _ _ G) _ _ _ _ _ G2)|].
    split; [apply (ok_store ram t lo hi text); assumption|]. eapply kept_trans; [exact K|apply (kept_store t); exact Nv].
  - exists (time s e + 3 + time s i + 2 + 4 + 5)%nat. split; [constructor; assumption|]. intros f A X Y S P St HS.
    destruct Pl as (B & H0 & H1 & Wa & Ri & R). cbn [emit] in B. unfold size in *. cbn [emit] in *. rewrite !len_app in *.
    change (len [_; _; _; _; _]) with 5 in *. change (len [_]) with 1 in *.
    replace (len (code 0 e)) with (len (code t e)) in * by (unfold len; f_equal; apply code_length).
    replace (len (code 0 i)) with (len (code t i)) in * by (unfold len; f_equal; apply code_length).
    apply bytes_from_app in B. destruct B as [Be B]. apply bytes_from_app in B. destruct B as [(B0 & _) B].
    apply bytes_from_app in B. destruct B as [Bi (B1 & B2 & B3 & B4 & B5 & _)]. cbn [length] in *.
    fold (len (code t e)) in *. fold (len (code t i)) in *. pose proof (len_nonneg (code t e)) as Hl. pose proof (len_nonneg (code t i)) as Hl2.
    destruct (expr_in e L s f d St Be H0 ltac:(lia) R De Hd2 A X Y S P HS) as (k & n & X1 & P1 & f1 & [_ En1] & G & _ & St1 & K1 & Vb).
    set (l := len (code t e)) in *. set (l2 := len (code t i)) in *. replace (L + l + Z.of_nat 1) with (L + l + 1) in * by lia.
    pose proof St1 as (_ & Hi1 & _). set (v := value s e) in *.
    pose proof (i_pha p hs v X1 Y S (L + l) P1 f1 ltac:(lia) ltac:(byte) (or_intror (st_page _))) as I1. one I1.
    pose proof (depth_nonneg i) as Dn.
    pose proof (ok_push hs t lo hi text Hs' s f1 (stack S) v (st_page S) St1 Vb) as St2. pose proof (k_push S d f1 v ltac:(lia)) as K2.
    set (f2 := store1 f1 (stack S, v)) in *.
    destruct (expr_in i (L + l + 1) s f2 (d - 1) St2 Bi ltac:(lia) ltac:(fold l2; lia) Ri ltac:(lia) ltac:(lia) v X1 Y ((S - 1) mod 256) P1 ltac:(lia))
      as (k2 & n2 & X2 & P2 & f3 & [_ En2] & G2 & _ & St3 & K3 & Vbi). fold l2 in G2.
    pose proof St3 as (_ & Hi3 & _). set (x := value s i) in *.
    pose proof (i_tax p hs x X2 Y ((S - 1) mod 256) (L + l + 1 + l2) P2 f3 ltac:(lia) ltac:(byte)) as I2. one I2.
    pose proof (i_pla p hs x x Y ((S - 1) mod 256) (L + l + 1 + l2 + 1) (nzf P2 x) f3 ltac:(lia) ltac:(byte)) as I3. cbv zeta in I3.
    replace (((S - 1) mod 256 + 1) mod 256) with S in I3 by lia.
    replace (stack ((S - 1) mod 256 + 1)) with (stack S) in I3 by (unfold stack; lia).
    assert (Es : f3 (stack S) = v).
    { rewrite K3; [apply store1_same|apply st_page|]. intros (j & Hj & E). unfold stack in E. lia. }
    rewrite Es in I3. one I3.
    pose proof (Wa x Vbi) as Wx. pose proof Wx as ((Ux & Rx & _) & Nx).
    pose proof (l_sta_x v x Y S (L + l + 1 + l2 + 1 + 1) (nzf (nzf P2 x) v) f3 a ltac:(lia) ltac:(lia) ltac:(byte) ltac:(byte) ltac:(byte)
      ltac:(unfold u16 in Ux; lia) Rx Nx) as G4.
    eexists ((k + (1 + (k2 + (1 + 1)))) + 1)%nat, _, x, _, _. split.
    { replace (L + (l + (1 + (l2 + 5)))) with (L + l + 1 + l2 + 1 + 1 + 3) by lia.
      eapply logs_cost; [eapply (logs_app p ram t lo hi _ _ _ _ _ _ []); [apply quiet; eapply stays_app; [exact G|]; eapply stays_app; [eassumption|]; eapply stays_app; [exact G2|];
        eapply stays_app; eassumption|exact G4]|lia]. }
    split; [apply (ok_store ram t lo hi text); assumption|]. eapply kept_trans; [exact K1|]. eapply kept_trans; [exact K2|].
    eapply kept_trans; [apply (k_deeper S d 1); [lia|exact K3]|apply (kept_store t); exact Nx].
  - destruct (settled_next ram t lo hi text procs at_ Hs Hprocs _ _ _ Pl) as (P1 & P2). destruct (IH1 Hd2 L P1) as (n1 & T1 & W1). destruct (IH2 Hd2 (L + size c1) P2) as (n2 & T2 & W2).
    exists (n1 + n2)%nat. split; [eapply takes_next; eassumption|]. intros f A X Y S P St HS. rewrite size_next.
    destruct (W1 f A X Y S P St HS) as (k1 & A1 & X1 & F1 & f1 & G1 & St1 & K1).
    destruct (W2 f1 A1 X1 Y S F1 St1 HS) as (k2 & A2 & X2 & F2 & f2 & G2 & St2 & K2).
    exists (k1 + k2)%nat, A2, X2, F2, f2. replace (L + (size c1 + size c2)) with (L + size c1 + size c2) by lia.
    split; [eapply logs_app; eassumption|]. split; [exact St2|exact (kept_trans _ _ _ _ _ K1 K2)].
  - destruct (settled_cond ram t lo hi text procs at_ Hs Hprocs _ _ _ _ Pl) as (Bt & H0 & Ge & P1 & P2 & EL & Bj). pose proof (code_width t e) as Ew.
    set (at1 := L + len (code t e) + 7) in *. set (at2 := at1 + size c1 + 3) in *. assert (Ea : at2 = at1 + size c1 + 3) by reflexivity. assert (Eb : at1 = L + len (code t e) + 7) by reflexivity.
    pose proof P2 as (_ & _ & H2 & _). pose proof P1 as (_ & H3 & _). pose proof (size_nonneg c1) as Hl1. pose proof (size_nonneg c2) as Hl2.
    destruct (Z.eqb_spec (value s e) 0) as [Ez|En].
    + destruct (IH Hd2 at2 P2) as (n & T & W2). exists (time s e + 5 + n)%nat.
      split; [apply takes_else; [exact De|exact Ez|replace (L + width e + 7 + size c1 + 3) with at2 by lia; exact T]|]. intros f A X Y S P St HS. rewrite <- EL.
      destruct (test_in e at2 L s f d St Bt H0 ltac:(lia) Ge De Hd2 A X Y S P HS) as (k & m & A1 & X1 & F1 & f1 & [_ En1] & G1 & St1 & K1).
      rewrite Ez in G1, En1. cbn [Z.eqb] in G1, En1. destruct (W2 f1 A1 X1 Y S F1 St1 HS) as (k2 & A2 & X2 & F2 & f2 & G2 & St2 & K2).
      exists (k + k2)%nat, A2, X2, F2, f2. split; [rewrite <- En1; exact (logs_app _ _ _ _ _ _ _ _ _ _ _ _ (quiet _ _ _ _ _ _ G1) _ _ _ _ _ G2)|].
      split; [exact St2|exact (kept_trans _ _ _ _ _ K1 K2)].
    + destruct (IH Hd2 at1 P1) as (n & T & W1). exists (time s e + onward (L + width e) + n + 3)%nat.
      split; [apply takes_then; [exact De|exact En|replace (L + width e + 7) with at1 by lia; exact T]|]. intros f A X Y S P St HS. rewrite <- EL.
      destruct (test_in e at2 L s f d St Bt H0 ltac:(lia) Ge De Hd2 A X Y S P HS) as (k & m & A1 & X1 & F1 & f1 & [_ En1] & G1 & St1 & K1).
      fold at1 in G1. replace (value s e =? 0) with false in * by lia. destruct (W1 f1 A1 X1 Y S F1 St1 HS) as (k2 & A2 & X2 & F2 & f2 & G2 & St2 & K2).
      pose proof (jump_in _ _ f2 ltac:(apply St2) Bj ltac:(lia) ltac:(lia) A2 X2 Y S F2) as G3.
      exists (k + (k2 + 1))%nat, A2, X2, F2, f2. split; [|split; [exact St2|exact (kept_trans _ _ _ _ _ K1 K2)]].
      rewrite <- (app_nil_r l). eapply logs_cost; [exact (logs_app _ _ _ _ _ _ _ _ _ _ _ _ (quiet _ _ _ _ _ _ G1) _ _ _ _ _ (logs_app _ _ _ _ _ _ _ _ _ _ _ _ G2 _ _ _ _ _ (quiet _ _ _ _ _ _ G3)))|].
      rewrite En1, <- Ew. lia.
  - destruct (settled_again ram t lo hi text procs at_ Hs Hprocs _ _ _ Pl) as (Bt & H0 & Ge & P1 & EL & H2 & Bj). exists (time s e + 5)%nat. split; [apply takes_stop; assumption|]. intros f A X Y S P St HS.
    rewrite <- EL. set (at1 := L + len (code t e) + 7) in *. set (stop := at1 + size c + 3) in *. assert (Ea : stop = at1 + size c + 3) by reflexivity. assert (Eb : at1 = L + len (code t e) + 7) by reflexivity.
    pose proof (size_nonneg c) as Hl1.
    destruct (test_in e stop L s f d St Bt H0 ltac:(lia) Ge De Hd2 A X Y S P HS) as (k & m & A1 & X1 & F1 & f1 & [_ En1] & G1 & St1 & K1).
    rewrite Ez in G1, En1. cbn [Z.eqb] in G1, En1. exists k, A1, X1, F1, f1. split; [rewrite <- En1; exact (quiet _ _ _ _ _ _ G1)|]. split; [exact St1|exact K1].
  - destruct (settled_again ram t lo hi text procs at_ Hs Hprocs _ _ _ Pl) as (Bt & H0 & Ge & P1 & EL & H2 & Bj). pose proof (code_width t e) as Ew.
    set (at1 := L + len (code t e) + 7) in *. set (stop := at1 + size c + 3) in *. assert (Ea : stop = at1 + size c + 3) by reflexivity. assert (Eb : at1 = L + len (code t e) + 7) by reflexivity.
    pose proof (size_nonneg c) as Hl1. pose proof P1 as (_ & H3 & _).
    destruct (IH1 Hd2 at1 P1) as (n1 & T1 & W1). destruct (IH2 Hd2 L Pl) as (n2 & T2 & W2). exists (time s e + onward (L + width e) + n1 + 3 + n2)%nat.
    split; [eapply takes_again; [exact De|exact En|replace (L + width e + 7) with at1 by lia; exact T1|exact T2]|]. intros f A X Y S P St HS.
    destruct (test_in e stop L s f d St Bt H0 ltac:(lia) Ge De Hd2 A X Y S P HS) as (k & m & A1 & X1 & F1 & f1 & [_ En1] & G1 & St1 & K1).
    fold at1 in G1. replace (value s e =? 0) with false in * by lia. destruct (W1 f1 A1 X1 Y S F1 St1 HS) as (k2 & A2 & X2 & F2 & f2 & G2 & St2 & K2).
    pose proof (jump_in _ _ f2 ltac:(apply St2) Bj ltac:(lia) ltac:(lia) A2 X2 Y S F2) as G3.
    destruct (W2 f2 A2 X2 Y S F2 St2 HS) as (k4 & A4 & X4 & F4 & f4 & G4 & St4 & K4).
    exists (k + (k2 + (1 + k4)))%nat, A4, X4, F4, f4. split; [|split; [exact St4|exact (kept_trans _ _ _ _ _ K1 (kept_trans _ _ _ _ _ K2 K4))]].
    eapply logs_cost; [exact (logs_app _ _ _ _ _ _ _ _ _ _ _ _ (quiet _ _ _ _ _ _ G1) _ _ _ _ _ (logs_app _ _ _ _ _ _ _ _ _ _ _ _ G2 _ _ _ _ _
      (logs_app _ _ _ _ _ _ _ _ _ _ _ _ (quiet _ _ _ _ _ _ G3) _ _ _ _ _ G4)))|].
    rewrite En1, <- Ew. lia.
  - destruct (IH ltac:(lia) (at_ k) (proj1 (Hprocs k body Ek))) as (n & T & W1). exists (6 + n + 6)%nat. split; [eapply takes_perform; eassumption|]. intros f A X Y S P St HS.
    destruct (call_in k body L s f d Ek St Pl ltac:(lia) A X Y S P HS) as (f1 & G1 & St1 & K1 & R1 & R2).
    destruct (W1 f1 A X Y ((S - 2) mod 256) P St1 ltac:(lia)) as (k2 & A2 & X2 & F2 & f2 & G2 & St2 & K2).
    assert (Q1 : f2 (stack S) = high (L + 2)).
    { rewrite K2; [exact R1|apply st_page|]. intros (j & Hj & E'). unfold stack in E'. lia. }
    assert (Q2 : f2 (stack (S - 1)) = low (L + 2)).
    { rewrite K2; [exact R2|apply st_page|]. intros (j & Hj & E'). unfold stack in E'. lia. }
    pose proof (return_in k body L s' f2 Ek St2 Pl A2 X2 Y S F2 HS Q1 Q2) as G3.
    change (size (Perform k)) with 3. exists (1 + (k2 + 1))%nat, A2, X2, F2, f2. split; [|split; [exact St2|]].
    + rewrite <- (app_nil_r l). eapply logs_cost; [exact (logs_app _ _ _ _ _ _ _ _ _ _ _ _ (quiet _ _ _ _ _ _ G1) _ _ _ _ _ (logs_app _ _ _ _ _ _ _ _ _ _ _ _ G2 _ _ _ _ _ (quiet _ _ _ _ _ _ G3)))|lia].
    + eapply kept_trans; [exact K1|]. apply (k_deeper S d 2); [lia|exact K2].
Qed.

(** ** Statements that go on *)
Definition reaches (L : Z) (s : Z -> Z) (K : nat) (l : list (Z * Z)) : Prop := forall f A X Y S P, ok s f -> 0 <= S < 256 ->
  exists k n r' f', (K <= k)%nat /\ lg k n (mkRegs A X Y S L P) f r' f' l.
(** What was written up to some moment is written at some moment. *)
Lemma stmt_so_far d c s l : so_far procs d c s l -> d <= 256 -> forall L, settled L c -> reaches L s 0 l.
Proof.
  induction 1 as [d c s|d c s s' l E|d c1 c2 s l E IH|d c1 c2 s s1 l1 l2 E1 E2 IH|d e c1 c2 s l De E IH|d e c s l De En E IH|d e c s s1 l1 l2 De En E1 E2 IH|d k body s l Ek Hd E IH];
    intros Hd2 L Pl f A X Y S P St HS.
  - exists 0%nat, 0%nat, (mkRegs A X Y S L P), f. split; [lia|constructor].
  - destruct (stmt_writes d c s s' l E Hd2 L Pl) as (n & _ & W1). destruct (W1 f A X Y S P St HS) as (k & A1 & X1 & F1 & f1 & G1 & _). exists k, n. eexists _, _. split; [lia|exact G1].
  - destruct (settled_next ram t lo hi text procs at_ Hs Hprocs _ _ _ Pl) as (P1 & P2). exact (IH Hd2 L P1 f A X Y S P St HS).
  - destruct (settled_next ram t lo hi text procs at_ Hs Hprocs _ _ _ Pl) as (P1 & P2). destruct (stmt_writes d c1 s s1 l1 E1 Hd2 L P1) as (n & _ & W1).
    destruct (W1 f A X Y S P St HS) as (k & A1 & X1 & F1 & f1 & G1 & St1 & _). destruct (IH Hd2 _ P2 f1 A1 X1 Y S F1 St1 HS) as (k2 & n2 & r2 & f2 & _ & G2).
    eexists _, _, r2, f2. split; [|eapply logs_app; eassumption]. lia.
  - destruct (settled_cond ram t lo hi text procs at_ Hs Hprocs _ _ _ _ Pl) as (Bt & H0 & Ge & P1 & P2 & EL & Bj).
    set (at1 := L + len (code t e) + 7) in *. set (at2 := at1 + size c1 + 3) in *. assert (Ea : at2 = at1 + size c1 + 3) by reflexivity. assert (Eb : at1 = L + len (code t e) + 7) by reflexivity.
    pose proof P2 as (_ & _ & H2 & _). pose proof P1 as (_ & H3 & _). pose proof (size_nonneg c1) as Hl1. pose proof (size_nonneg c2) as Hl2.
    destruct (test_in e at2 L s f d St Bt H0 ltac:(lia) Ge De Hd2 A X Y S P HS) as (k & m & A1 & X1 & F1 & f1 & _ & G1 & St1 & _). fold at1 in G1.
    assert (N : reaches (if value s e =? 0 then at2 else at1) s 0 l) by (destruct (value s e =? 0); apply IH; assumption).
    destruct (N f1 A1 X1 Y S F1 St1 HS) as (k2 & n2 & r2 & f2 & _ & G2). eexists _, _, r2, f2. split; [|exact (logs_app _ _ _ _ _ _ _ _ _ _ _ _ (quiet _ _ _ _ _ _ G1) _ _ _ _ _ G2)]. lia.
  - destruct (settled_again ram t lo hi text procs at_ Hs Hprocs _ _ _ Pl) as (Bt & H0 & Ge & P1 & EL & H2 & Bj).
    set (at1 := L + len (code t e) + 7) in *. set (stop := at1 + size c + 3) in *. assert (Ea : stop = at1 + size c + 3) by reflexivity. assert (Eb : at1 = L + len (code t e) + 7) by reflexivity.
    pose proof (size_nonneg c) as Hl1. pose proof P1 as (_ & H3 & _).
    destruct (test_in e stop L s f d St Bt H0 ltac:(lia) Ge De Hd2 A X Y S P HS) as (k & m & A1 & X1 & F1 & f1 & _ & G1 & St1 & _). fold at1 in G1. replace (value s e =? 0) with false in * by lia.
    destruct (IH Hd2 at1 P1 f1 A1 X1 Y S F1 St1 HS) as (k2 & n2 & r2 & f2 & _ & G2). eexists _, _, r2, f2. split; [|exact (logs_app _ _ _ _ _ _ _ _ _ _ _ _ (quiet _ _ _ _ _ _ G1) _ _ _ _ _ G2)]. lia.
  - destruct (settled_again ram t lo hi text procs at_ Hs Hprocs _ _ _ Pl) as (Bt & H0 & Ge & P1 & EL & H2 & Bj).
    set (at1 := L + len (code t e) + 7) in *. set (stop := at1 + size c + 3) in *. assert (Ea : stop = at1 + size c + 3) by reflexivity. assert (Eb : at1 = L + len (code t e) + 7) by reflexivity.
    pose proof (size_nonneg c) as Hl1. pose proof P1 as (_ & H3 & _). destruct (stmt_writes d c s s1 l1 E1 Hd2 at1 P1) as (n & _ & W1).
    destruct (test_in e stop L s f d St Bt H0 ltac:(lia) Ge De Hd2 A X Y S P HS) as (k & m & A1 & X1 & F1 & f1 & _ & G1 & St1 & _). fold at1 in G1. replace (value s e =? 0) with false in * by lia.
    destruct (W1 f1 A1 X1 Y S F1 St1 HS) as (k2 & A2 & X2 & F2 & f2 & G2 & St2 & _).
    pose proof (jump_in _ _ f2 ltac:(apply St2) Bj ltac:(lia) ltac:(lia) A2 X2 Y S F2) as G3.
    destruct (IH Hd2 L Pl f2 A2 X2 Y S F2 St2 HS) as (k4 & n4 & r4 & f4 & _ & G4). eexists _, _, r4, f4. split; [|exact (logs_app _ _ _ _ _ _ _ _ _ _ _ _ (quiet _ _ _ _ _ _ G1) _ _ _ _ _
      (logs_app _ _ _ _ _ _ _ _ _ _ _ _ G2 _ _ _ _ _ (logs_app _ _ _ _ _ _ _ _ _ _ _ _ (quiet _ _ _ _ _ _ G3) _ _ _ _ _ G4)))]. lia.
  - destruct (call_in k body L s f d Ek St Pl ltac:(lia) A X Y S P HS) as (f1 & G1 & St1 & _).
    destruct (IH ltac:(lia) (at_ k) (proj1 (Hprocs k body Ek)) f1 A X Y ((S - 2) mod 256) P St1 ltac:(lia)) as (k2 & n2 & r2 & f2 & _ & G2).
    eexists _, _, r2, f2. split; [|exact (logs_app _ _ _ _ _ _ _ _ _ _ _ _ (quiet _ _ _ _ _ _ G1) _ _ _ _ _ G2)]. lia.
Qed.

(** The statement ends, overflows, or [K] instructions later the processor
    has written what the statement writes up to some moment. *)
Lemma still_or_tells K : forall c d L s, d <= 256 -> settled L c ->
  (exists s' l, tells procs d c s s' l) \/ overflows procs d c s \/ exists l, so_far procs d c s l /\ reaches L s K l.
Proof.
  induction K as [|K IHK].
  { intros c d L s _ _. right. right. exists []. split; [constructor|]. intros f A X Y S P _ _. exists 0%nat, 0%nat, (mkRegs A X Y S L P), f. split; [lia|constructor]. }
  induction c as [|v e|a i e|c1 IH1 c2 IH2|e c1 IH1 c2 IH2|e c IH|j]; intros d L s Hd2 Pl.
  - left. eexists _, _. constructor.
  - destruct (Z_le_dec (depth e) d); [left; eexists _, _; constructor; lia|right; left; constructor; lia].
  - destruct (Z_le_dec (depth e) d); [|right; left; constructor; lia]. destruct (Z_le_dec (1 + depth i) d); [left; eexists _, _; constructor; lia|right; left; constructor; lia].
  - destruct (settled_next ram t lo hi text procs at_ Hs Hprocs _ _ _ Pl) as (P1 & P2).
    destruct (IH1 d L s Hd2 P1) as [(s1 & l1 & E1)|[O|(l & E & N)]]; [|right; left; apply overflows_next1; exact O|right; right; exists l; split; [apply so_far_first; exact E|exact N]].
    pose proof (stmt_writes d c1 s s1 l1 E1 Hd2 L P1) as (n1 & T1 & W1).
    destruct (IH2 d _ s1 Hd2 P2) as [(s2 & l2 & E2)|[O|(l & E & N)]]; [left; eexists _, _; econstructor; eassumption|right; left; eapply overflows_next2; [eapply takes_does; exact T1|exact O]|].
    right. right. exists (l1 ++ l). split; [eapply so_far_second; eassumption|]. intros f A X Y S P St HS.
    destruct (W1 f A X Y S P St HS) as (k1 & A1 & X1 & F1 & f1 & G1 & St1 & _). destruct (N f1 A1 X1 Y S F1 St1 HS) as (k2 & n2 & r2 & f2 & Hk & G2).
    eexists _, _, r2, f2. split; [|eapply logs_app; eassumption]. lia.
  - destruct (Z_le_dec (depth e) d) as [De|De]; [|right; left; apply overflows_test; lia].
    destruct (settled_cond ram t lo hi text procs at_ Hs Hprocs _ _ _ _ Pl) as (Bt & H0 & Ge & P1 & P2 & EL & Bj).
    set (at1 := L + len (code t e) + 7) in *. set (at2 := at1 + size c1 + 3) in *. assert (Ea : at2 = at1 + size c1 + 3) by reflexivity. assert (Eb : at1 = L + len (code t e) + 7) by reflexivity.
    pose proof P2 as (_ & _ & H2 & _). pose proof P1 as (_ & H3 & _). pose proof (size_nonneg c1) as Hl1. pose proof (size_nonneg c2) as Hl2.
    assert (K0 : (exists s' l, tells procs d (if value s e =? 0 then c2 else c1) s s' l) \/ overflows procs d (if value s e =? 0 then c2 else c1) s \/
      exists l, so_far procs d (if value s e =? 0 then c2 else c1) s l /\ reaches (if value s e =? 0 then at2 else at1) s (Datatypes.S K) l).
    { destruct (value s e =? 0); [apply IH2|apply IH1]; assumption. }
    destruct K0 as [(s' & l & E)|[O|(l & E & N)]]; [left; exists s', l; constructor; assumption|right; left; apply overflows_cond; assumption|].
    right. right. exists l. split; [apply so_far_cond; assumption|]. intros f A X Y S P St HS.
    destruct (test_in e at2 L s f d St Bt H0 ltac:(lia) Ge De Hd2 A X Y S P HS) as (k & m & A1 & X1 & F1 & f1 & _ & G1 & St1 & _). fold at1 in G1.
    destruct (N f1 A1 X1 Y S F1 St1 HS) as (k2 & n2 & r2 & f2 & Hk & G2). eexists _, _, r2, f2. split; [|exact (logs_app _ _ _ _ _ _ _ _ _ _ _ _ (quiet _ _ _ _ _ _ G1) _ _ _ _ _ G2)]. lia.
  - destruct (Z_le_dec (depth e) d) as [De|De]; [|right; left; apply overflows_loop; lia].
    destruct (settled_again ram t lo hi text procs at_ Hs Hprocs _ _ _ Pl) as (Bt & H0 & Ge & P1 & EL & H2 & Bj).
    set (at1 := L + len (code t e) + 7) in *. set (stop := at1 + size c + 3) in *. assert (Ea : stop = at1 + size c + 3) by reflexivity. assert (Eb : at1 = L + len (code t e) + 7) by reflexivity.
    pose proof (size_nonneg c) as Hl1. pose proof P1 as (_ & H3 & _).
    destruct (Z.eq_dec (value s e) 0) as [Ez|En]; [left; eexists _, _; apply tells_stop; assumption|].
    assert (T : forall f, ok s f -> forall A X Y S P, 0 <= S < 256 -> exists k n A' X' P' f', (1 <= k)%nat /\
      lg k n (mkRegs A X Y S L P) f (mkRegs A' X' Y S at1 P') f' [] /\ ok s f').
    { intros f St A X Y S P HS. destruct (test_in e stop L s f d St Bt H0 ltac:(lia) Ge De Hd2 A X Y S P HS) as (k1 & n1 & A1 & X1 & F1 & f1 & Hk & G1 & St1 & _).
      replace (value s e =? 0) with false in G1 by lia. exists k1, n1, A1, X1, F1, f1. split; [apply Hk|split; [apply quiet|]; assumption]. }
    destruct (IH d at1 s Hd2 P1) as [(s1 & l1 & E1)|[O|(l & E & N)]]; [|right; left; apply overflows_now; assumption|].
    + destruct (stmt_writes d c s s1 l1 E1 Hd2 at1 P1) as (n1 & T1 & W1).
      destruct (IHK (Again e c) d L s1 Hd2 Pl) as [(s2 & l2 & E2)|[O|(l & E & N)]]; [left; eexists _, _; eapply tells_again; eassumption|right; left; eapply overflows_later; [| |eapply takes_does; exact T1|exact O]; assumption|].
      right. right. exists (l1 ++ l). split; [eapply so_far_later; eassumption|]. intros f A X Y S P St HS.
      destruct (T f St A X Y S P HS) as (k1 & m1 & A1 & X1 & F1 & f1 & Hk & G1 & St1).
      destruct (W1 f1 A1 X1 Y S F1 St1 HS) as (k2 & A2 & X2 & F2 & f2 & G2 & St2 & _).
      pose proof (jump_in _ _ f2 ltac:(apply St2) Bj ltac:(lia) ltac:(lia) A2 X2 Y S F2) as G3.
      destruct (N f2 A2 X2 Y S F2 St2 HS) as (k4 & n4 & r4 & f4 & Hk4 & G4). eexists _, _, r4, f4. split; [|exact (logs_app _ _ _ _ _ _ _ _ _ _ _ _ G1 _ _ _ _ _
        (logs_app _ _ _ _ _ _ _ _ _ _ _ _ G2 _ _ _ _ _ (logs_app _ _ _ _ _ _ _ _ _ _ _ _ (quiet _ _ _ _ _ _ G3) _ _ _ _ _ G4)))]. lia.
    + right. right. exists l. split; [apply so_far_now; assumption|]. intros f A X Y S P St HS.
      destruct (T f St A X Y S P HS) as (k1 & n1 & A1 & X1 & F1 & f1 & _ & G1 & St1).
      destruct (N f1 A1 X1 Y S F1 St1 HS) as (k2 & n2 & r2 & f2 & Hk & G2). eexists _, _, r2, f2. split; [|exact (logs_app _ _ _ _ _ _ _ _ _ _ _ _ G1 _ _ _ _ _ G2)]. lia.
  - destruct (Z_le_dec 2 d) as [Hd|Hd]; [|right; left; apply overflows_call; lia].
    pose proof Pl as (_ & _ & _ & Hj). cbn [proper] in Hj. destruct (nth_error procs j) as [body|] eqn:Ek; [|apply nth_error_None in Ek; lia].
    destruct (IHK body (d - 2) (at_ j) s ltac:(lia) (proj1 (Hprocs j body Ek))) as [(s' & l & E)|[O|(l & E & N)]];
      [left; exists s', l; eapply tells_perform; eassumption|right; left; eapply overflows_body; eassumption|].
    right. right. exists l. split; [eapply so_far_body; eassumption|]. intros f A X Y S P St HS.
    destruct (call_in j body L s f d Ek St Pl ltac:(lia) A X Y S P HS) as (f1 & G1 & St1 & _).
    destruct (N f1 A X Y ((S - 2) mod 256) P St1 ltac:(lia)) as (k2 & n2 & r2 & f2 & Hk & G2).
    eexists _, _, r2, f2. split; [|exact (logs_app _ _ _ _ _ _ _ _ _ _ _ _ (quiet _ _ _ _ _ _ G1) _ _ _ _ _ G2)]. lia.
Qed.
End Language.
