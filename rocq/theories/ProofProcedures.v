(** Executing translated programs with procedures on the specification machine. *)
From Verif Require Import Base Arith ModelMap ModelRegs6502 ModelIsa6502 Link6502 Spec6502 SpecProgram ProofProgram SpecRoutines ProofRoutines SpecLanguage ProofLanguage SpecProcedures.

Section Instructions.
Variables (p : profile) (ram : Z -> Prop) (A X Y S PC : Z) (P : processor_status) (f : Z -> Z).
Notation R := (mkRegs A X Y S PC P).
Lemma i_jsr a : 0 <= PC <= 0xfffd -> f PC = 0x20 -> f (PC + 1) = low a -> f (PC + 2) = high a -> ram (stack S) -> ram (stack (S - 1)) ->
  exec p ram 1 6 R f (mkRegs A X Y ((S - 2) mod 256) a P) (store1 (store1 f (stack S, high (PC + 2))) (stack (S - 1), low (PC + 2))).
Proof.
  intros H1 H2 H3 H4 R1 R2.
  eapply (exec_one p ram R f 0x20 Jsr Absolute 6 (mkEffect (mkRegs A X Y ((S - 2) mod 256) a P) [(stack S, high (PC + 2)); (stack (S - 1), low (PC + 2))] 6)); try reflexivity.
  - cbn [rPC]. lia.
  - exact H2.
  - cbn [rPC]. rewrite H3, H4. unfold execute. rewrite word_halves. cbn [rPC rS]. rewrite (Z.mod_small (PC + 2)) by lia. reflexivity.
  - constructor; [exact R1|]. constructor; [exact R2|constructor].
Qed.
Lemma i_rts r : 0 <= PC <= 0xfffd -> f PC = 0x60 -> f (stack (S + 1)) = low r -> f (stack (S + 2)) = high r -> 0 <= r < 0xffff ->
  exec p ram 1 6 R f (mkRegs A X Y ((S + 2) mod 256) (r + 1) P) f.
Proof.
  intros H1 H2 H3 H4 Hr. eapply one_quiet; [exact H1|exact H2|reflexivity|]. unfold execute. cbn [rS]. rewrite H3, H4, word_halves.
  rewrite (Z.mod_small (r + 1)) by lia. reflexivity.
Qed.
End Instructions.

(** ** How long the code is *)
Lemma code_length t t' e : length (code t e) = length (code t' e).
Proof. induction e as [k|v|a i IH|e IH|e IH|o e1 IH1 e2 IH2]; cbn [code]; rewrite ?app_length; cbn [length]; try (destruct o; cbn [op_code length]); lia. Qed.
Lemma emit_length at1 t1 at2 t2 c : forall L1 L2, length (emit at1 t1 L1 c) = length (emit at2 t2 L2 c).
Proof.
  induction c as [|v e|a i e|c1 IH1 c2 IH2|e c1 IH1 c2 IH2|e c IH|k]; intros L1 L2; cbn [emit]; cbv zeta; rewrite ?app_length; cbn [length unless_zero];
    rewrite ?(code_length t1 t2 e), ?(code_length t1 t2 i); try reflexivity.
  - erewrite (IH1 L1 L2), IH2. reflexivity.
  - erewrite IH1, IH2. reflexivity.
  - erewrite IH. reflexivity.
Qed.
Lemma emit_size at_ t L c : len (emit at_ t L c) = size c.
Proof. unfold size, len. f_equal. apply emit_length. Qed.
Lemma size_nonneg c : 0 <= size c.
Proof. apply len_nonneg. Qed.

(** ** Time and meaning *)
Lemma does_takes procs at_ d c s s' : does procs d c s s' -> forall L, exists n, takes procs at_ d L c s s' n.
Proof.
  induction 1 as [d s|d v e s De|d a i e s De Di|d c1 c2 s s1 s2 E1 IH1 E2 IH2|d e c1 c2 s s' De E IH|d e c s De Ez|d e c s s1 s2 De En E1 IH1 E2 IH2|d k body s s' Ek Hd E IH]; intros L.
  - eexists. constructor.
  - eexists. constructor. exact De.
  - eexists. constructor; assumption.
  - destruct (IH1 L) as [n1 T1], (IH2 (L + size c1)) as [n2 T2]. eexists. econstructor; eassumption.
  - destruct (value s e =? 0) eqn:Ev.
    + destruct (IH (L + width e + 7 + size c1 + 3)) as [n T]. eexists. apply takes_else; [exact De|lia|exact T].
    + destruct (IH (L + width e + 7)) as [n T]. eexists. apply takes_then; [exact De|lia|exact T].
  - eexists. apply takes_stop; assumption.
  - destruct (IH1 (L + width e + 7)) as [n1 T1], (IH2 L) as [n2 T2]. eexists. eapply takes_again; eassumption.
  - destruct (IH (at_ k)) as [n T]. eexists. eapply takes_perform; eassumption.
Qed.
Lemma takes_does procs at_ d L c s s' n : takes procs at_ d L c s s' n -> does procs d c s s'.
Proof.
  induction 1; try (constructor; assumption).
  - econstructor; eassumption.
  - constructor; [assumption|]. replace (value s e =? 0) with false by lia. assumption.
  - constructor; [assumption|]. replace (value s e =? 0) with true by lia. assumption.
  - eapply does_again; eassumption.
  - eapply does_perform; eassumption.
Qed.

Section Layout.
Context (at_ : nat -> Z) (t : Z).
Lemma emit_all_entry procs : forall L, L + len (emit_all at_ t L procs) = place L procs (length procs).
Proof.
  induction procs as [|b r IH]; intros L; cbn [emit_all place length]; [unfold len; cbn [length]; lia|].
  rewrite <- IH, !len_app, emit_size. change (len [_]) with 1. lia.
Qed.
Context (text : Z -> Z).
Lemma procs_placed procs : forall L, bytes_from text L (emit_all at_ t L procs) -> forall k body, nth_error procs k = Some body ->
  bytes_from text (place L procs k) (emit at_ t (place L procs k) body) /\ text (place L procs k + size body) = 0x60 /\
  L <= place L procs k /\ place L procs k + size body + 1 <= L + len (emit_all at_ t L procs).
Proof.
  induction procs as [|b r IH]; intros L B [|k] body E; try discriminate; cbn [nth_error emit_all place] in *.
  - injection E as ->. apply bytes_from_app in B. destruct B as [B1 B]. fold (len (emit at_ t L body)) in B. rewrite emit_size in B. destruct B as (B2 & _).
    rewrite !len_app, emit_size. change (len [_]) with 1. pose proof (len_nonneg (emit_all at_ t (L + size body + 1) r)).
    split; [exact B1|]. split; [exact B2|]. lia.
  - apply bytes_from_app in B. destruct B as [_ B]. fold (len (emit at_ t L b)) in B. rewrite emit_size in B. destruct B as (_ & B).
    destruct (IH (L + size b + 1) B k body E) as (K1 & K2 & K3 & K4). rewrite !len_app, emit_size. change (len [_]) with 1. pose proof (size_nonneg b).
    split; [exact K1|]. split; [exact K2|]. lia.
Qed.
End Layout.

Section Language.
Context (p : profile) (ram : Z -> Prop) (t lo hi : Z) (text : Z -> Z) (procs : list stmt) (at_ : nat -> Z).
Context (Hlo : 0 <= lo) (Hhi : hi <= 0xfffe) (Hs : forall q, scratch t q -> u16 q /\ ram q /\ ~ (lo <= q < hi)) (Ht1 : ~ page_one t).
Notation go := (stays p ram lo hi).
Notation Q := (fun q => u16 q /\ ~ scratch t q).
Notation W := (fun q => (u16 q /\ ram q /\ ~ (lo <= q < hi)) /\ ~ scratch t q).
Notation ok := (state_ok t lo hi text).
Ltac byte := match goal with
  | I : intact lo hi text ?f |- ?f ?q = ?b => rewrite (I q) by lia;
      match goal with B : text ?q' = b |- _ => replace q with q' by lia; exact B end end.
Ltac one H := pose proof (stays_one _ _ lo hi _ _ _ _ _ H ltac:(cbn [rPC]; lia)).

(** Of the stack at most the [d] bytes from [S] downwards change. *)
Definition kept (S d : Z) (f f' : Z -> Z) : Prop := forall q, page_one q -> ~ below S d q -> f' q = f q.
Lemma kept_refl S d f : kept S d f f.
Proof. intros q _ _. reflexivity. Qed.
Lemma kept_trans S d f f1 f2 : kept S d f f1 -> kept S d f1 f2 -> kept S d f f2.
Proof. intros K1 K2 q Hq N. rewrite K2, K1 by assumption. reflexivity. Qed.
Lemma kept_store S d f a v : ~ scratch t a -> kept S d f (store1 f (a, v)).
Proof. intros Ha q Hq N. apply store1_other. intros ->. apply Ha. right. exact Hq. Qed.
Lemma kept_push S d f v : 1 <= d -> kept S d f (store1 f (stack S, v)).
Proof. intros Hd q Hq N. apply store1_other. intros ->. apply N. exists 0. split; [lia|]. f_equal. lia. Qed.
Lemma kept_deeper S d n f f' : 0 <= n <= d -> kept ((S - n) mod 256) (d - n) f f' -> kept S d f f'.
Proof. intros Hn K q Hq N. apply K; [exact Hq|]. intros (j & Hj & ->). apply N. exists (j + n). split; [lia|]. unfold stack. lia. Qed.
Lemma stack_page s : page_one (stack s).
Proof. unfold stack, page_one. lia. Qed.
Lemma page_not_t q : page_one q -> q <> t.
Proof. intros H ->. contradiction. Qed.
Lemma not_scratch_t q : page_one q -> scratch t q.
Proof. intros H. right. exact H. Qed.

(** An expression, with room for [d] bytes. *)
Lemma expr_within e L s f d : ok s f -> bytes_from text L (code t e) -> lo <= L -> L + len (code t e) <= hi -> reads Q e -> depth e <= d -> d <= 256 ->
  forall A X Y S P, 0 <= S < 256 -> exists k n X' P' f', (1 <= k /\ n = time s e)%nat /\
    go k n (mkRegs A X Y S L P) f (mkRegs (value s e) X' Y S (L + len (code t e)) P') f' /\
    ps_zero P' = (value s e =? 0) /\ ok s f' /\ kept S d f f' /\ 0 <= value s e < 256.
Proof.
  intros St B H0 H1 R Hd Hd2 A X Y S P HS. destruct (value_state t lo hi text s f e St R) as [Ev Vb]. pose proof (time_state t lo hi text s f e St R) as Et. rewrite Ev, Et. destruct St as (Ca & Hi & By).
  destruct (expr_executes p ram t lo hi text Hlo Hs Ht1 e L f Hi By B H0 H1 ltac:(lia) R ltac:(lia) A X Y S P HS) as (k & n & X' & P' & f' & Hk & G & Zf & Fr & By').
  pose proof (quiet_calm ram t lo hi text Hs _ _ _ _ Fr) as Ca'. pose proof (calm_intact ram t lo hi text Hs _ _ Ca' Hi) as Hi'.
  exists k, n, X', P', f'. split; [exact Hk|]. split; [exact G|]. split; [exact Zf|]. split; [|split; [|exact Vb]].
  - split; [exact (calm_trans _ _ _ _ Ca Ca')|split; assumption].
  - intros q Hq N. apply Fr; [apply page_not_t, Hq|]. intros (j & Hj & ->). apply N. exists j. split; [lia|reflexivity].
Qed.
Lemma ok_store s f a v : W a -> ok s f -> 0 <= v < 256 -> ok (set s a v) (store1 f (a, v)).
Proof.
  intros Wa (Ca & Hi & By) Hv. split; [apply set_calm; exact Ca|]. split; [apply (store_intact ram t lo hi text f a v Wa Hi)|apply bytes_store; assumption].
Qed.
Lemma ok_push s f a v : page_one a -> ok s f -> 0 <= v < 256 -> ok s (store1 f (a, v)).
Proof.
  intros Ha (Ca & Hi & By) Hv. pose proof (calm_store t f a v (not_scratch_t a Ha)) as C.
  split; [exact (calm_trans _ _ _ _ Ca C)|]. split; [exact (calm_intact ram t lo hi text Hs _ _ C Hi)|apply bytes_store; assumption].
Qed.
Lemma page_ram q : page_one q -> ram q.
Proof. intros H. apply (Hs q). right. exact H. Qed.

Lemma test_within e target L s f d : ok s f -> bytes_from text L (code t e ++ unless_zero target) -> lo <= L ->
  L + len (code t e) + 7 <= hi -> reads Q e -> depth e <= d -> d <= 256 ->
  forall A X Y S P, 0 <= S < 256 -> exists k n A' X' P' f', (1 <= k /\ n = time s e + (if (value s e =? 0)%Z then 5 else onward (L + len (code t e))))%nat /\
    go k n (mkRegs A X Y S L P) f (mkRegs A' X' Y S (if value s e =? 0 then target else L + len (code t e) + 7) P') f' /\ ok s f' /\ kept S d f f'.
Proof.
  intros St B H0 H1 R Hd Hd2 A X Y S P HS. apply bytes_from_app in B. fold (len (code t e)) in B.
  destruct B as [Be (B0 & B1 & B2 & B3 & B4 & B5 & B6 & _)]. pose proof (len_nonneg (code t e)) as Hl.
  destruct (expr_within e L s f d St Be H0 ltac:(lia) R Hd Hd2 A X Y S P HS) as (k & n & X' & P' & f' & Hk & G & Zf & St' & K & Vb).
  set (l := len (code t e)) in *. pose proof St' as (_ & Hi' & _). set (v := value s e) in *. destruct (v =? 0) eqn:E0.
  - pose proof (i_bne_through p ram v X' Y S (L + l) P' f' ltac:(lia) ltac:(byte) Zf) as I1. one I1.
    pose proof (i_jmp p ram v X' Y S (L + l + 2) P' f' target ltac:(lia) ltac:(byte) ltac:(byte) ltac:(byte)) as I2. one I2.
    exists (k + (1 + 1))%nat, (n + (2 + 3))%nat, v, X', P', f'. split; [lia|]. split; [|split; assumption].
    eapply stays_app; [exact G|]. eapply stays_app; eassumption.
  - pose proof (i_bne_on p ram v X' Y S (L + l) P' f' 5 ltac:(lia) ltac:(byte) Zf ltac:(byte) ltac:(lia) ltac:(lia)) as I1. one I1.
    pose proof (i_nop p ram v X' Y S (L + l + 5) P' f' ltac:(lia) ltac:(byte)) as I2. one I2.
    pose proof (i_nop p ram v X' Y S (L + l + 5 + 1) P' f' ltac:(lia) ltac:(byte)) as I3. one I3.
    exists (k + (1 + (1 + 1)))%nat, (n + ((if ((L + l + 5) / 256 =? (L + l) / 256)%Z then 3 else 4) + (2 + 2)))%nat, v, X', P', f'.
    split; [unfold onward; lia|]. split; [|split; assumption].
    replace (L + l + 7) with (L + l + 5 + 1 + 1) by lia.
    eapply stays_app; [exact G|]. eapply stays_app; [eassumption|]. eapply stays_app; eassumption.
Qed.
Lemma jump_within a L f : intact lo hi text f -> bytes_from text L [0x4c; low a; high a] -> lo <= L -> L + 3 <= hi ->
  forall A X Y S P, go 1 3 (mkRegs A X Y S L P) f (mkRegs A X Y S a P) f.
Proof.
  intros Hi (B0 & B1 & B2 & _) H0 H1 A X Y S P.
  pose proof (i_jmp p ram A X Y S L P f a ltac:(lia) ltac:(byte) ltac:(byte) ltac:(byte)) as I1. one I1. assumption.
Qed.

(** ** Statements in their place *)
Definition settled (L : Z) (c : stmt) : Prop :=
  bytes_from text L (emit at_ t L c) /\ lo <= L /\ L + size c <= hi /\ proper (reads Q) W (length procs) c.
Context (Hprocs : forall k body, nth_error procs k = Some body -> settled (at_ k) body /\ text (at_ k + size body) = 0x60 /\ at_ k + size body + 1 <= hi).

Lemma size_next c1 c2 : size (Next c1 c2) = size c1 + size c2.
Proof. unfold size at 1. cbn [emit]. cbv zeta. rewrite len_app, !emit_size. reflexivity. Qed.
Lemma size_cond e c1 c2 : size (Cond e c1 c2) = len (code t e) + 7 + size c1 + 3 + size c2.
Proof.
  unfold size at 1. cbn [emit]. cbv zeta. rewrite !len_app, !emit_size. change (len (unless_zero _)) with 7. change (len [_; _; _]) with 3.
  replace (len (code 0 e)) with (len (code t e)) by (unfold len; f_equal; apply code_length). lia.
Qed.
Lemma size_again e c : size (Again e c) = len (code t e) + 7 + size c + 3.
Proof.
  unfold size at 1. cbn [emit]. cbv zeta. rewrite !len_app, !emit_size. change (len (unless_zero _)) with 7. change (len [_; _; _]) with 3.
  replace (len (code 0 e)) with (len (code t e)) by (unfold len; f_equal; apply code_length). lia.
Qed.
Lemma settled_next L c1 c2 : settled L (Next c1 c2) -> settled L c1 /\ settled (L + size c1) c2.
Proof.
  intros (B & H0 & H1 & G1 & G2). rewrite size_next in H1. cbn [emit] in B. cbv zeta in B. apply bytes_from_app in B. destruct B as [B1 B2].
  fold (len (emit at_ t L c1)) in B2. rewrite !emit_size in B2. pose proof (size_nonneg c1). pose proof (size_nonneg c2).
  split; (split; [assumption|]; split; [lia|]; split; [lia|assumption]).
Qed.
Lemma settled_cond L e c1 c2 : settled L (Cond e c1 c2) ->
  let at1 := L + len (code t e) + 7 in let at2 := at1 + size c1 + 3 in
  bytes_from text L (code t e ++ unless_zero at2) /\ lo <= L /\ reads Q e /\ settled at1 c1 /\ settled at2 c2 /\ at2 + size c2 = L + size (Cond e c1 c2) /\
  bytes_from text (at1 + size c1) [0x4c; low (at2 + size c2); high (at2 + size c2)].
Proof.
  intros (B & H0 & H1 & Ge & G1 & G2) at1 at2. rewrite size_cond in *. cbn [emit] in B. cbv zeta in B. rewrite !emit_size in B. fold at1 in B. fold at2 in B.
  rewrite app_assoc in B. apply bytes_from_app in B. destruct B as [B0 B]. apply bytes_from_app in B. destruct B as [B1 B].
  apply bytes_from_app in B. destruct B as [Bj B2]. cbn [length] in B2. rewrite app_length in *. cbn [length unless_zero] in *.
  replace (L + Z.of_nat (length (code t e) + 7)) with at1 in * by (unfold at1, len; lia).
  fold (len (emit at_ t at1 c1)) in *. rewrite emit_size in Bj, B2. replace (at1 + size c1 + Z.of_nat 3) with at2 in B2 by (unfold at2; lia).
  pose proof (size_nonneg c1). pose proof (size_nonneg c2). pose proof (len_nonneg (code t e)).
  split; [exact B0|]. split; [exact H0|]. split; [exact Ge|]. split; [|split; [|split]].
  - split; [assumption|]. split; [unfold at1; lia|]. split; [unfold at1; lia|assumption].
  - split; [assumption|]. split; [unfold at2, at1; lia|]. split; [unfold at2, at1; lia|assumption].
  - unfold at2, at1. lia.
  - exact Bj.
Qed.
Lemma settled_again L e c : settled L (Again e c) ->
  let at1 := L + len (code t e) + 7 in let stop := at1 + size c + 3 in
  bytes_from text L (code t e ++ unless_zero stop) /\ lo <= L /\ reads Q e /\ settled at1 c /\ stop = L + size (Again e c) /\ stop <= hi /\
  bytes_from text (at1 + size c) [0x4c; low L; high L].
Proof.
  intros (B & H0 & H1 & Ge & G1) at1 stop. rewrite size_again in *. cbn [emit] in B. cbv zeta in B. rewrite !emit_size in B. fold at1 in B. fold stop in B.
  rewrite app_assoc in B. apply bytes_from_app in B. destruct B as [B0 B]. apply bytes_from_app in B. destruct B as [B1 Bj].
  rewrite app_length in *. cbn [length unless_zero] in *.
  replace (L + Z.of_nat (length (code t e) + 7)) with at1 in * by (unfold at1, len; lia).
  fold (len (emit at_ t at1 c)) in *. rewrite emit_size in Bj.
  pose proof (size_nonneg c). pose proof (len_nonneg (code t e)).
  split; [exact B0|]. split; [exact H0|]. split; [exact Ge|]. split; [|split; [|split]].
  - split; [assumption|]. split; [unfold at1; lia|]. split; [unfold at1; lia|assumption].
  - unfold stop, at1. lia.
  - unfold stop, at1. lia.
  - exact Bj.
Qed.

(** A call: to the procedure, and back from it. *)
Lemma call_within k body L s f d : nth_error procs k = Some body -> ok s f -> settled L (Perform k) -> 2 <= d <= 256 ->
  forall A X Y S P, 0 <= S < 256 -> exists f', go 1 6 (mkRegs A X Y S L P) f (mkRegs A X Y ((S - 2) mod 256) (at_ k) P) f' /\ ok s f' /\ kept S d f f' /\
    f' (stack S) = high (L + 2) /\ f' (stack (S - 1)) = low (L + 2).
Proof.
  intros Ek St (B & H0 & H1 & _) Hd A X Y S P HS. change (size (Perform k)) with 3 in H1. destruct B as (B0 & B1 & B2 & _). pose proof St as (_ & Hi & _).
  pose proof (i_jsr p ram A X Y S L P f (at_ k) ltac:(lia) ltac:(byte) ltac:(byte) ltac:(byte) (page_ram _ (stack_page _)) (page_ram _ (stack_page _))) as I1. one I1.
  assert (V1 : 0 <= high (L + 2) < 256) by (unfold high; lia). assert (V2 : 0 <= low (L + 2) < 256) by (unfold low; lia).
  eexists. split; [eassumption|]. split; [|split; [|split]].
  - apply ok_push; [apply stack_page| |exact V2]. apply ok_push; [apply stack_page|exact St|exact V1].
  - eapply kept_trans; [apply kept_push; lia|]. apply (kept_deeper S d 1); [lia|].
    replace (stack (S - 1)) with (stack ((S - 1) mod 256)) by (unfold stack; lia). apply kept_push. lia.
  - rewrite store1_other by (unfold stack; lia). apply store1_same.
  - apply store1_same.
Qed.
Lemma return_within k body L s f d : nth_error procs k = Some body -> ok s f -> settled L (Perform k) ->
  forall A X Y S P, 0 <= S < 256 -> f (stack S) = high (L + 2) -> f (stack (S - 1)) = low (L + 2) ->
  go 1 6 (mkRegs A X Y ((S - 2) mod 256) (at_ k + size body) P) f (mkRegs A X Y S (L + 3) P) f /\ ok s f /\ kept S d f f.
Proof.
  intros Ek St (_ & H0 & H1 & _) A X Y S P HS E1 E2. change (size (Perform k)) with 3 in H1. destruct (Hprocs k body Ek) as ((_ & K0 & _) & B0 & K1).
  pose proof St as (_ & Hi & _). pose proof (size_nonneg body).
  pose proof (i_rts p ram A X Y ((S - 2) mod 256) (at_ k + size body) P f (L + 2) ltac:(lia) ltac:(byte)) as I1.
  replace (stack ((S - 2) mod 256 + 1)) with (stack (S - 1)) in I1 by (unfold stack; lia).
  replace (stack ((S - 2) mod 256 + 2)) with (stack S) in I1 by (unfold stack; lia).
  replace (((S - 2) mod 256 + 2) mod 256) with S in I1 by lia.
  specialize (I1 E2 E1 ltac:(lia)). one I1. replace (L + 2 + 1) with (L + 3) in * by lia.
  split; [assumption|]. split; [exact St|apply kept_refl].
Qed.

Definition performs (d L : Z) (c : stmt) (s s' : Z -> Z) (n : nat) : Prop := forall f A X Y S P, ok s f -> 0 <= S < 256 ->
  exists k A' X' P' f', go k n (mkRegs A X Y S L P) f (mkRegs A' X' Y S (L + size c) P') f' /\ ok s' f' /\ kept S d f f'.
Lemma stays_cost k n n' r f r' f' : go k n r f r' f' -> n = n' -> go k n' r f r' f'.
Proof. intros G <-. exact G. Qed.
Lemma code_width e : len (code t e) = width e.
Proof. unfold width, len. f_equal. apply code_length. Qed.

Lemma stmt_takes d L c s s' n : takes procs at_ d L c s s' n -> d <= 256 -> settled L c -> performs d L c s s' n.
Proof.
  induction 1 as [d L s|d L v e s De|d L a i e s De Di|d L c1 c2 s s1 s2 m1 m2 E1 IH1 E2 IH2|d L e c1 c2 s s' m De En E IH|d L e c1 c2 s s' m De Ez E IH|d L e c s De Ez|d L e c s s1 s2 m1 m2 De En E1 IH1 E2 IH2|d L k body s s' m Ek Hd E IH];
    intros Hd2 Pl f A X Y S P St HS.
  - exists 0%nat, A, X, P, f. change (size Pass) with 0. replace (L + 0) with L by lia. split; [constructor|]. split; [exact St|apply kept_refl].
  - destruct Pl as (B & H0 & H1 & Wv & R). cbn [emit] in B. unfold size in *. cbn [emit] in *. rewrite len_app in *. change (len [_; _; _]) with 3 in *.
    replace (len (code 0 e)) with (len (code t e)) in * by (unfold len; f_equal; apply code_length).
    apply bytes_from_app in B. fold (len (code t e)) in B. destruct B as [Be (B0 & B1 & B2 & _)]. pose proof (len_nonneg (code t e)) as Hl.
    destruct (expr_within e L s f d St Be H0 ltac:(lia) R De Hd2 A X Y S P HS) as (k & n & X' & P' & f' & Hk & G & Zf & St' & K & Vb).
    set (l := len (code t e)) in *. pose proof St' as (_ & Hi' & _). pose proof Wv as ((_ & Rv & _) & Nv).
    pose proof (i_sta p ram (value s e) X' Y S (L + l) P' f' v ltac:(lia) ltac:(byte) ltac:(byte) ltac:(byte) Rv) as I1. one I1.
    eexists (k + 1)%nat, _, X', P', _. split; [replace (L + (l + 3)) with (L + l + 3) by lia; eapply stays_cost; [eapply stays_app; eassumption|lia]|].
    split; [apply ok_store; assumption|]. eapply kept_trans; [exact K|apply kept_store; exact Nv].
  - destruct Pl as (B & H0 & H1 & Wa & Ri & R). cbn [emit] in B. unfold size in *. cbn [emit] in *. rewrite !len_app in *.
    change (len [_; _; _; _; _]) with 5 in *. change (len [_]) with 1 in *.
    replace (len (code 0 e)) with (len (code t e)) in * by (unfold len; f_equal; apply code_length).
    replace (len (code 0 i)) with (len (code t i)) in * by (unfold len; f_equal; apply code_length).
    apply bytes_from_app in B. destruct B as [Be B]. apply bytes_from_app in B. destruct B as [(B0 & _) B].
    apply bytes_from_app in B. destruct B as [Bi (B1 & B2 & B3 & B4 & B5 & _)]. cbn [length] in *.
    fold (len (code t e)) in *. fold (len (code t i)) in *. pose proof (len_nonneg (code t e)) as Hl. pose proof (len_nonneg (code t i)) as Hl2.
    destruct (expr_within e L s f d St Be H0 ltac:(lia) R De Hd2 A X Y S P HS) as (k & n & X1 & P1 & f1 & Hk & G & _ & St1 & K1 & Vb).
    set (l := len (code t e)) in *. set (l2 := len (code t i)) in *. replace (L + l + Z.of_nat 1) with (L + l + 1) in * by lia.
    pose proof St1 as (_ & Hi1 & _). set (v := value s e) in *.
    pose proof (i_pha p ram v X1 Y S (L + l) P1 f1 ltac:(lia) ltac:(byte) (page_ram _ (stack_page _))) as I1. one I1.
    pose proof (depth_nonneg i) as Dn.
    pose proof (ok_push s f1 (stack S) v (stack_page S) St1 Vb) as St2. pose proof (kept_push S d f1 v ltac:(lia)) as K2.
    set (f2 := store1 f1 (stack S, v)) in *.
    destruct (expr_within i (L + l + 1) s f2 (d - 1) St2 Bi ltac:(lia) ltac:(fold l2; lia) Ri ltac:(lia) ltac:(lia) v X1 Y ((S - 1) mod 256) P1 ltac:(lia))
      as (k2 & n2 & X2 & P2 & f3 & Hk2 & G2 & _ & St3 & K3 & Vbi). fold l2 in G2.
    pose proof St3 as (_ & Hi3 & _). set (x := value s i) in *.
    pose proof (i_tax p ram x X2 Y ((S - 1) mod 256) (L + l + 1 + l2) P2 f3 ltac:(lia) ltac:(byte)) as I2. one I2.
    pose proof (i_pla p ram x x Y ((S - 1) mod 256) (L + l + 1 + l2 + 1) (nzf P2 x) f3 ltac:(lia) ltac:(byte)) as I3. cbv zeta in I3.
    replace (((S - 1) mod 256 + 1) mod 256) with S in I3 by lia.
    replace (stack ((S - 1) mod 256 + 1)) with (stack S) in I3 by (unfold stack; lia).
    assert (Es : f3 (stack S) = v).
    { rewrite K3; [apply store1_same|apply stack_page|]. intros (j & Hj & E). unfold stack in E. lia. }
    rewrite Es in I3. one I3.
    pose proof (Wa x Vbi) as Wx. pose proof Wx as ((Ux & Rx & _) & Nx).
    pose proof (i_sta_x p ram v x Y S (L + l + 1 + l2 + 1 + 1) (nzf (nzf P2 x) v) f3 a ltac:(lia) ltac:(byte) ltac:(byte) ltac:(byte)
      ltac:(unfold u16 in Ux; lia) Rx) as I4. one I4.
    eexists (k + (1 + (k2 + (1 + (1 + 1)))))%nat, _, x, _, _. split.
    { replace (L + (l + (1 + (l2 + 5)))) with (L + l + 1 + l2 + 1 + 1 + 3) by lia.
      eapply stays_cost; [eapply stays_app; [exact G|]; eapply stays_app; [eassumption|]; eapply stays_app; [exact G2|];
        eapply stays_app; [eassumption|]; eapply stays_app; eassumption|lia]. }
    split; [apply ok_store; assumption|]. eapply kept_trans; [exact K1|]. eapply kept_trans; [exact K2|].
    eapply kept_trans; [apply (kept_deeper S d 1); [lia|exact K3]|apply kept_store; exact Nx].
  - destruct (settled_next _ _ _ Pl) as (P1 & P2). rewrite size_next.
    destruct (IH1 Hd2 P1 f A X Y S P St HS) as (k1 & A1 & X1 & F1 & f1 & G1 & St1 & K1).
    destruct (IH2 Hd2 P2 f1 A1 X1 Y S F1 St1 HS) as (k2 & A2 & X2 & F2 & f2 & G2 & St2 & K2).
    exists (k1 + k2)%nat, A2, X2, F2, f2. replace (L + (size c1 + size c2)) with (L + size c1 + size c2) by lia.
    split; [eapply stays_app; eassumption|]. split; [exact St2|exact (kept_trans _ _ _ _ _ K1 K2)].
  - destruct (settled_cond _ _ _ _ Pl) as (Bt & H0 & Ge & P1 & P2 & EL & Bj). rewrite <- EL. rewrite <- code_width in *.
    set (at1 := L + len (code t e) + 7) in *. set (at2 := at1 + size c1 + 3) in *. assert (Ea : at2 = at1 + size c1 + 3) by reflexivity. assert (Eb : at1 = L + len (code t e) + 7) by reflexivity.
    pose proof P2 as (_ & _ & H2 & _). pose proof P1 as (_ & H3 & _). pose proof (size_nonneg c1) as Hl1. pose proof (size_nonneg c2) as Hl2.
    destruct (test_within e at2 L s f d St Bt H0 ltac:(lia) Ge De Hd2 A X Y S P HS) as (k & n & A1 & X1 & F1 & f1 & [_ En1] & G1 & St1 & K1).
    fold at1 in G1. replace (value s e =? 0) with false in * by lia.
    destruct (IH Hd2 P1 f1 A1 X1 Y S F1 St1 HS) as (k2 & A2 & X2 & F2 & f2 & G2 & St2 & K2).
    pose proof (jump_within _ _ f2 ltac:(apply St2) Bj ltac:(lia) ltac:(lia) A2 X2 Y S F2) as G3.
    exists (k + (k2 + 1))%nat, A2, X2, F2, f2. split; [eapply stays_cost; [eapply stays_app; [exact G1|]; eapply stays_app; eassumption|lia]|].
    split; [exact St2|exact (kept_trans _ _ _ _ _ K1 K2)].
  - destruct (settled_cond _ _ _ _ Pl) as (Bt & H0 & Ge & P1 & P2 & EL & Bj). rewrite <- EL. rewrite <- code_width in *.
    set (at1 := L + len (code t e) + 7) in *. set (at2 := at1 + size c1 + 3) in *. assert (Ea : at2 = at1 + size c1 + 3) by reflexivity. assert (Eb : at1 = L + len (code t e) + 7) by reflexivity.
    pose proof P2 as (_ & _ & H2 & _). pose proof P1 as (_ & H3 & _). pose proof (size_nonneg c1) as Hl1. pose proof (size_nonneg c2) as Hl2.
    destruct (test_within e at2 L s f d St Bt H0 ltac:(lia) Ge De Hd2 A X Y S P HS) as (k & n & A1 & X1 & F1 & f1 & [_ En1] & G1 & St1 & K1).
    rewrite Ez in G1, En1. cbn [Z.eqb] in G1, En1.
    destruct (IH Hd2 P2 f1 A1 X1 Y S F1 St1 HS) as (k2 & A2 & X2 & F2 & f2 & G2 & St2 & K2).
    exists (k + k2)%nat, A2, X2, F2, f2. split; [eapply stays_cost; [eapply stays_app; eassumption|lia]|]. split; [exact St2|exact (kept_trans _ _ _ _ _ K1 K2)].
  - destruct (settled_again _ _ _ Pl) as (Bt & H0 & Ge & P1 & EL & H2 & Bj). rewrite <- EL.
    set (at1 := L + len (code t e) + 7) in *. set (stop := at1 + size c + 3) in *. assert (Ea : stop = at1 + size c + 3) by reflexivity. assert (Eb : at1 = L + len (code t e) + 7) by reflexivity.
    pose proof (size_nonneg c) as Hl1.
    destruct (test_within e stop L s f d St Bt H0 ltac:(lia) Ge De Hd2 A X Y S P HS) as (k & n & A1 & X1 & F1 & f1 & [_ En1] & G1 & St1 & K1).
    rewrite Ez in G1, En1. cbn [Z.eqb] in G1, En1. exists k, A1, X1, F1, f1. split; [exact (stays_cost _ _ _ _ _ _ _ G1 En1)|split; assumption].
  - destruct (settled_again _ _ _ Pl) as (Bt & H0 & Ge & P1 & EL & H2 & Bj). rewrite <- code_width in *.
    set (at1 := L + len (code t e) + 7) in *. set (stop := at1 + size c + 3) in *. assert (Ea : stop = at1 + size c + 3) by reflexivity. assert (Eb : at1 = L + len (code t e) + 7) by reflexivity.
    pose proof (size_nonneg c) as Hl1. pose proof P1 as (_ & H3 & _).
    destruct (test_within e stop L s f d St Bt H0 ltac:(lia) Ge De Hd2 A X Y S P HS) as (k & n & A1 & X1 & F1 & f1 & [_ En1] & G1 & St1 & K1).
    replace (value s e =? 0) with false in * by lia. fold at1 in G1.
    destruct (IH1 Hd2 P1 f1 A1 X1 Y S F1 St1 HS) as (k2 & A2 & X2 & F2 & f2 & G2 & St2 & K2).
    pose proof (jump_within _ _ f2 ltac:(apply St2) Bj ltac:(lia) ltac:(lia) A2 X2 Y S F2) as G3.
    destruct (IH2 Hd2 Pl f2 A2 X2 Y S F2 St2 HS) as (k4 & A4 & X4 & F4 & f4 & G4 & St4 & K4).
    exists (k + (k2 + (1 + k4)))%nat, A4, X4, F4, f4. split; [|split; [exact St4|exact (kept_trans _ _ _ _ _ K1 (kept_trans _ _ _ _ _ K2 K4))]].
    eapply stays_cost; [eapply stays_app; [exact G1|]; eapply stays_app; [exact G2|]; eapply stays_app; eassumption|lia].
  - destruct (call_within k body L s f d Ek St Pl ltac:(lia) A X Y S P HS) as (f1 & G1 & St1 & K1 & R1 & R2).
    destruct (IH ltac:(lia) (proj1 (Hprocs k body Ek)) f1 A X Y ((S - 2) mod 256) P St1 ltac:(lia)) as (k2 & A2 & X2 & F2 & f2 & G2 & St2 & K2).
    assert (Q1 : f2 (stack S) = high (L + 2)).
    { rewrite K2; [exact R1|apply stack_page|]. intros (j & Hj & E'). unfold stack in E'. lia. }
    assert (Q2 : f2 (stack (S - 1)) = low (L + 2)).
    { rewrite K2; [exact R2|apply stack_page|]. intros (j & Hj & E'). unfold stack in E'. lia. }
    destruct (return_within k body L s' f2 d Ek St2 Pl A2 X2 Y S F2 HS Q1 Q2) as (G3 & _).
    change (size (Perform k)) with 3. exists (1 + (k2 + 1))%nat, A2, X2, F2, f2. split; [|split; [exact St2|]].
    + eapply stays_cost; [eapply stays_app; [exact G1|]; eapply stays_app; eassumption|lia].
    + eapply kept_trans; [exact K1|]. apply (kept_deeper S d 2); [lia|exact K2].
Qed.
Lemma stmt_executes d c s s' : does procs d c s s' -> d <= 256 -> forall L, settled L c -> exists n, performs d L c s s' n.
Proof.
  intros E Hd L Pl. destruct (does_takes procs at_ d c s s' E L) as (n & T). exists n. exact (stmt_takes d L c s s' n T Hd Pl).
Qed.

(** The statement ends, overflows, or the processor is still at it after [k] instructions. *)
Definition still_at (k : nat) (L : Z) (s : Z -> Z) : Prop := forall f A X Y S P, ok s f -> 0 <= S < 256 ->
  exists n r' f', go k n (mkRegs A X Y S L P) f r' f'.

Lemma still_or_does k : forall c d L s, d <= 256 -> settled L c -> (exists s', does procs d c s s') \/ overflows procs d c s \/ still_at k L s.
Proof.
  induction k as [|k IHk].
  { intros c d L s _ _. right. right. intros f A X Y S P _ _. exists 0%nat, (mkRegs A X Y S L P), f. constructor. }
  induction c as [|v e|a i e|c1 IH1 c2 IH2|e c1 IH1 c2 IH2|e c IH|j]; intros d L s Hd2 Pl.
  - left. eexists. constructor.
  - destruct (Z_le_dec (depth e) d); [left; eexists; constructor; lia|right; left; constructor; lia].
  - destruct (Z_le_dec (depth e) d); [|right; left; constructor; lia]. destruct (Z_le_dec (1 + depth i) d); [left; eexists; constructor; lia|right; left; constructor; lia].
  - destruct (settled_next _ _ _ Pl) as (P1 & P2).
    destruct (IH1 d L s Hd2 P1) as [[s1 E1]|[O|N]]; [|right; left; apply overflows_next1; exact O|right; right; exact N].
    destruct (IH2 d _ s1 Hd2 P2) as [[s2 E2]|[O|N]]; [left; exists s2; econstructor; eassumption|right; left; eapply overflows_next2; eassumption|].
    right. right. intros f A X Y S P St HS. destruct (stmt_executes d _ _ _ E1 Hd2 L P1) as (n1 & Pf). destruct (Pf f A X Y S P St HS) as (k1 & A1 & X1 & F1 & f1 & G1 & St1 & _).
    destruct (N f1 A1 X1 Y S F1 St1 HS) as (n2 & r2 & f2 & G2). pose proof (stays_app _ _ _ _ _ _ _ _ _ _ G1 _ _ _ _ G2) as G5.
    exact (stays_take _ _ _ _ (Datatypes.S k) _ _ _ _ _ _ G5 ltac:(lia)).
  - destruct (Z_le_dec (depth e) d) as [De|De]; [|right; left; apply overflows_test; lia].
    destruct (settled_cond _ _ _ _ Pl) as (Bt & H0 & Ge & P1 & P2 & EL & Bj).
    set (at1 := L + len (code t e) + 7) in *. set (at2 := at1 + size c1 + 3) in *. assert (Ea : at2 = at1 + size c1 + 3) by reflexivity. assert (Eb : at1 = L + len (code t e) + 7) by reflexivity.
    pose proof P2 as (_ & _ & H2 & _). pose proof P1 as (_ & H3 & _). pose proof (size_nonneg c1) as Hl1. pose proof (size_nonneg c2) as Hl2.
    assert (K : (exists s', does procs d (if value s e =? 0 then c2 else c1) s s') \/ overflows procs d (if value s e =? 0 then c2 else c1) s \/
      still_at (Datatypes.S k) (if value s e =? 0 then at2 else at1) s).
    { destruct (value s e =? 0); [apply IH2|apply IH1]; assumption. }
    destruct K as [[s' E]|[O|N]]; [left; exists s'; constructor; assumption|right; left; apply overflows_cond; assumption|]. right. right. intros f A X Y S P St HS.
    destruct (test_within e at2 L s f d St Bt H0 ltac:(lia) Ge De Hd2 A X Y S P HS) as (k1 & n1 & A1 & X1 & F1 & f1 & _ & G1 & St1 & _).
    destruct (N f1 A1 X1 Y S F1 St1 HS) as (n2 & r2 & f2 & G2). pose proof (stays_app _ _ _ _ _ _ _ _ _ _ G1 _ _ _ _ G2) as G5.
    exact (stays_take _ _ _ _ (Datatypes.S k) _ _ _ _ _ _ G5 ltac:(lia)).
  - destruct (Z_le_dec (depth e) d) as [De|De]; [|right; left; apply overflows_loop; lia].
    destruct (settled_again _ _ _ Pl) as (Bt & H0 & Ge & P1 & EL & H2 & Bj).
    set (at1 := L + len (code t e) + 7) in *. set (stop := at1 + size c + 3) in *. assert (Ea : stop = at1 + size c + 3) by reflexivity. assert (Eb : at1 = L + len (code t e) + 7) by reflexivity.
    pose proof (size_nonneg c) as Hl1. pose proof P1 as (_ & H3 & _).
    destruct (Z.eq_dec (value s e) 0) as [Ez|En]; [left; exists s; apply does_stop; assumption|].
    assert (T : forall f, ok s f -> forall A X Y S P, 0 <= S < 256 -> exists k n A' X' P' f', (1 <= k)%nat /\
      go k n (mkRegs A X Y S L P) f (mkRegs A' X' Y S at1 P') f' /\ ok s f').
    { intros f St A X Y S P HS. destruct (test_within e stop L s f d St Bt H0 ltac:(lia) Ge De Hd2 A X Y S P HS) as (k1 & n1 & A1 & X1 & F1 & f1 & Hk & G1 & St1 & _).
      replace (value s e =? 0) with false in G1 by lia. exists k1, n1, A1, X1, F1, f1. split; [apply Hk|split; assumption]. }
    destruct (IH d at1 s Hd2 P1) as [[s1 E1]|[O|N]]; [|right; left; apply overflows_now; assumption|].
    + destruct (IHk (Again e c) d L s1 Hd2 Pl) as [[s2 E2]|[O|N]]; [left; exists s2; eapply does_again; eassumption|right; left; eapply overflows_later; eassumption|].
      right. right. intros f A X Y S P St HS.
      destruct (T f St A X Y S P HS) as (k1 & n1 & A1 & X1 & F1 & f1 & Hk & G1 & St1).
      destruct (stmt_executes d _ _ _ E1 Hd2 at1 P1) as (n2 & Pf). destruct (Pf f1 A1 X1 Y S F1 St1 HS) as (k2 & A2 & X2 & F2 & f2 & G2 & St2 & _).
      pose proof (jump_within _ _ f2 ltac:(apply St2) Bj ltac:(lia) ltac:(lia) A2 X2 Y S F2) as G3.
      destruct (N f2 A2 X2 Y S F2 St2 HS) as (n4 & r4 & f4 & G4).
      pose proof (stays_app _ _ _ _ _ _ _ _ _ _ G1 _ _ _ _ (stays_app _ _ _ _ _ _ _ _ _ _ G2 _ _ _ _ (stays_app _ _ _ _ _ _ _ _ _ _ G3 _ _ _ _ G4))) as G5.
      exact (stays_take _ _ _ _ (Datatypes.S k) _ _ _ _ _ _ G5 ltac:(lia)).
    + right. right. intros f A X Y S P St HS.
      destruct (T f St A X Y S P HS) as (k1 & n1 & A1 & X1 & F1 & f1 & _ & G1 & St1).
      destruct (N f1 A1 X1 Y S F1 St1 HS) as (n2 & r2 & f2 & G2). pose proof (stays_app _ _ _ _ _ _ _ _ _ _ G1 _ _ _ _ G2) as G5.
      exact (stays_take _ _ _ _ (Datatypes.S k) _ _ _ _ _ _ G5 ltac:(lia)).
  - destruct (Z_le_dec 2 d) as [Hd|Hd]; [|right; left; apply overflows_call; lia].
    pose proof Pl as (_ & _ & _ & Hj). cbn [proper] in Hj. destruct (nth_error procs j) as [body|] eqn:Ek; [|apply nth_error_None in Ek; lia].
    destruct (IHk body (d - 2) (at_ j) s ltac:(lia) (proj1 (Hprocs j body Ek))) as [[s' E]|[O|N]];
      [left; exists s'; eapply does_perform; eassumption|right; left; eapply overflows_body; eassumption|].
    right. right. intros f A X Y S P St HS.
    destruct (call_within j body L s f d Ek St Pl ltac:(lia) A X Y S P HS) as (f1 & G1 & St1 & _).
    destruct (N f1 A X Y ((S - 2) mod 256) P St1 ltac:(lia)) as (n2 & r2 & f2 & G2). pose proof (stays_app _ _ _ _ _ _ _ _ _ _ G1 _ _ _ _ G2) as G5.
    exact (stays_take _ _ _ _ (Datatypes.S k) _ _ _ _ _ _ G5 ltac:(lia)).
Qed.
End Language.
