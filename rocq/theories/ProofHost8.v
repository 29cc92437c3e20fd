(** Structured CHIP-8 programs on a machine whose host changes the key. *)
From Verif Require Import Base Arith ModelMap ModelStep ModelDisplay ModelChip8 ModelOpsChip8 ModelRunChip8 SpecMap Link6502
  SpecChip8 SpecChip8Parts SpecChip8Run ProofChip8 ProofChip8Step ProofChip8Reach ProofChip8Run
  SpecRoutines8 ProofRoutines8 SpecReplace8 SpecLanguage8 ProofLanguage8 SpecHost8.

Lemma observe_key c k q : observe (with_interrupt c k) q = seen (observe c) k q.
Proof. destruct q; reflexivity. Qed.
Lemma key_wf c k : well_formed c -> well_formed (with_interrupt c k).
Proof. intros W. destruct W. constructor; assumption. Qed.
Lemma seen_twice s k k' q : seen (seen s k) k' q = seen s k' q.
Proof. unfold seen, upd. destruct q; reflexivity. Qed.

(** All instructions of a program are [P]. *)
Fixpoint does (P : opcode -> Prop) (c : structured) : Prop :=
  match c with
  | Nothing => True
  | Do op => P op
  | Then c1 c2 | Choose _ c1 c2 => does P c1 /\ does P c2
  | Loop _ c => does P c
  end.

Section Host.
Context (e : environment) (p : profile) (He : env_ok e) (K : schedule) (lo hi : Z).
Context (P : opcode -> Prop).
(** Instructions from [n] up to [n'], each lying at an address from [lo] to [hi]
    and being [P]. *)
Inductive plays8 : nat -> nat -> chip8 -> world -> chip8 -> world -> Prop :=
| plays8_done n c w : plays8 n n c w c w
| plays8_step n n' c w c1 w1 c2 w2 : lo <= observe c PPC < hi -> (exists op, operands_ok op /\ P op /\ fetches p c (encode op)) -> step e p (with_interrupt c (K n)) w = Ok (c1, w1) ->
    plays8 (S n) n' c1 w1 c2 w2 -> plays8 n n' c w c2 w2.
Lemma plays8_app n n' c w c1 w1 : plays8 n n' c w c1 w1 -> forall n2 c2 w2, plays8 n' n2 c1 w1 c2 w2 -> plays8 n n2 c w c2 w2.
Proof. induction 1; intros n2 c3 w3 Y; [exact Y|]. econstructor; eauto. Qed.
Lemma plays8_play n n' c w c1 w1 : plays8 n n' c w c1 w1 -> (n <= n')%nat /\ play e p K n (n' - n) c w = Ok (c1, w1).
Proof.
  induction 1 as [n c w|n n' c w c1 w1 c2 w2 Hp Hop E X (Hn & Y)]; [split; [lia|]; rewrite Nat.sub_diag; reflexivity|].
  split; [lia|]. replace (n' - n)%nat with (S (n' - S n)) by lia. cbn [play]. rewrite E. exact Y.
Qed.
Lemma plays8_take n n' c w c1 w1 : plays8 n n' c w c1 w1 -> forall m, (n <= m <= n')%nat -> exists c2 w2, plays8 n m c w c2 w2 /\ ((m < n')%nat -> lo <= observe c2 PPC < hi).
Proof.
  induction 1 as [n c w|n n' c w c1 w1 c2 w2 Hp Hop E X IH]; intros m Hm.
  - exists c, w. replace m with n by lia. split; [constructor|lia].
  - destruct (Nat.eq_dec n m) as [<-|Hd]; [exists c, w; split; [constructor|intros _; exact Hp]|].
    destruct (IH m ltac:(pose proof (proj1 (plays8_play _ _ _ _ _ _ X)); lia)) as (c3 & w3 & X3 & P3). exists c3, w3. split; [econstructor; eauto|exact P3].
Qed.

Context (Pj : forall a, P (JpNonV0Indexed a)) (Ps : forall b, P (skip_if b)).
Context (text : Z -> Z) (Hlo : 0 <= lo) (Hhi : hi < 4096).
Notation state8 := (state8 lo hi text).
Notation coded := (coded text).
Notation placed8 := (placed8 lo hi text).

Lemma state8_key s c k : state8 s c -> state8 (seen s k) (with_interrupt c k).
Proof.
  intros (W & A & T). split; [exact (key_wf c k W)|]. split; [|intros a Ha; exact (T a Ha)].
  intros q Hq. rewrite observe_key. unfold seen, upd. destruct (part_eqb PKey q); [reflexivity|]. apply A. exact Hq.
Qed.
Lemma state8_same s s' c : (forall q, s' q = s q) -> state8 s c -> state8 s' c.
Proof. intros H (W & A & T). split; [exact W|]. split; [|exact T]. intros q Hq. rewrite (A q Hq). symmetry. apply H. Qed.
Lemma pc_key c k : observe (with_interrupt c k) PPC = observe c PPC.
Proof. reflexivity. Qed.

(** One instruction with a known effect. *)
Lemma op_plays8 n s c w L ops op f w' : state8 s c -> coded L (op :: ops) -> lo <= L -> L + 2 <= hi -> observe c PPC = L -> operands_ok op -> P op ->
  effect e p (observe (with_interrupt c (K n))) w op = Some (f, w') -> exists c', plays8 n (S n) c w c' w' /\ well_formed c' /\ forall q, observe c' q = f q.
Proof.
  intros St C H0 H1 Hp Ho Pop E. pose proof (state8_key s c (K n) St) as St'.
  pose proof (fetch_coded p lo hi text Hlo Hhi s c L ops op St C H0 H1 Hp) as F0.
  pose proof (fetch_coded p lo hi text Hlo Hhi (seen s (K n)) (with_interrupt c (K n)) L ops op St' C H0 H1 Hp) as F. destruct St' as (W & _ & T).
  pose proof (step_effect e p _ w W He op Ho F) as X. rewrite E in X. destruct X as (c' & Es & W' & Lk).
  exists c'. split; [|split; [exact W'|exact Lk]]. econstructor; [lia|exists op; split; [exact Ho|split; [exact Pop|exact F0]]|exact Es|constructor].
Qed.
Lemma jump_plays8 n s c w L ops a : state8 s c -> coded L (JpNonV0Indexed a :: ops) -> lo <= L -> L + 2 <= hi -> observe c PPC = L -> 0 <= a < 4096 ->
  exists c', plays8 n (S n) c w c' w /\ state8 (seen s (K n)) c' /\ observe c' PPC = a.
Proof.
  intros St C H0 H1 Hp Ha. destruct (op_plays8 n s c w L ops _ _ w St C H0 H1 Hp Ha (Pj a) eq_refl) as (c' & X & W' & O).
  destruct (state8_key s c (K n) St) as (W & A & T). exists c'. split; [exact X|]. split; [|rewrite O; reflexivity]. split; [exact W'|]. split.
  - intros q Hq. rewrite O, <- (A q Hq). unfold upd. destruct q; try reflexivity. contradiction.
  - intros a' Ha'. rewrite O. exact (T a' Ha').
Qed.
Lemma test_plays8 n s c w L b a : state8 s c -> coded L [skip_if b; JpNonV0Indexed a] -> lo <= L -> L + 4 <= hi -> observe c PPC = L -> 0 <= a < 4096 ->
  good_condition b -> exists c', let yes := holds b (seen s (K n)) in
    plays8 n (if yes then S n else S (S n)) c w c' w /\ state8 (if yes then seen s (K n) else seen s (K (S n))) c' /\ observe c' PPC = if yes then L + 4 else a.
Proof.
  intros St C H0 H1 Hp Ha G. destruct (skip_effect e p (observe (with_interrupt c (K n))) w b G) as [E Ho].
  destruct (op_plays8 n s c w L _ _ _ w St C H0 ltac:(lia) Hp Ho (Ps b) E) as (c1 & X1 & W1 & O1).
  destruct (state8_key s c (K n) St) as (W & A & T). rewrite (holds_alike _ _ b A) in O1.
  assert (St1 : state8 (seen s (K n)) c1).
  { split; [exact W1|]. split.
    - intros q Hq. rewrite O1, <- (A q Hq). unfold advance, upd. destruct q; try reflexivity. contradiction.
    - intros a' Ha'. rewrite O1. exact (T a' Ha'). }
  cbv zeta. destruct (holds b (seen s (K n))).
  - exists c1. split; [exact X1|]. split; [exact St1|]. rewrite O1. unfold advance, upd. cbn [part_eqb]. rewrite pc_key, Hp. lia.
  - assert (Pc : observe c1 PPC = L + 2) by (rewrite O1; unfold advance, upd; cbn [part_eqb]; rewrite pc_key, Hp; lia).
    pose proof (coded_app text L [skip_if b] [JpNonV0Indexed a] C) as [_ C2].
    destruct (jump_plays8 (S n) _ c1 w (L + 2) [] a St1 C2 ltac:(lia) ltac:(lia) Pc Ha) as (c2 & X2 & St2 & P2).
    exists c2. split; [exact (plays8_app _ _ _ _ _ _ X1 _ _ _ X2)|]. split; [|exact P2]. exact (state8_same _ _ _ (fun q => eq_sym (seen_twice _ _ _ q)) St2).
Qed.

Definition plays_to8 (L : Z) (c : structured) (s : part -> Z) (w : world) n (s' : part -> Z) (w' : world) n' : Prop :=
  forall m, state8 s m -> observe m PPC = L -> exists m', plays8 n n' m w m' w' /\ state8 s' m' /\ observe m' PPC = L + bytes (translate L c).

Lemma cmd_plays8 c s w n s' w' n' : hosted8 e p lo hi K c s w n s' w' n' -> forall L, placed8 L c -> does P c -> plays_to8 L c s w n s' w' n'.
Proof.
  induction 1 as [s w n|op s w n s' w' E Sp|c1 c2 s w n s1 w1 n1 s2 w2 n2 E1 IH1 E2 IH2|b c1 c2 s w n s' w' n' Hb E IH|b c1 c2 s w n s' w' n' Hb E IH|b c s w n Hb
    |b c s w n s1 w1 n1 s2 w2 n2 Hb E1 IH1 E2 IH2]; intros L Pl Dc m St Hp; cbn [does] in Dc.
  - exists m. split; [constructor|]. split; [exact St|]. cbn [translate]. change (bytes []) with 0. lia.
  - destruct Pl as (C & H0 & H1 & Ho & J). cbn [translate] in *. change (bytes [op]) with 2 in *. destruct (state8_key s m (K n) St) as (W & A & T).
    pose proof (effect_alike e p _ _ w op A J) as Q. rewrite E in Q. destruct Q as (o' & E' & A' & P').
    destruct (op_plays8 n s m w L [] op o' w' St C H0 ltac:(lia) Hp Ho Dc E') as (m' & X & W' & O).
    exists m'. split; [exact X|]. split; [|rewrite O, P', pc_key, Hp; lia]. split; [exact W'|]. split.
    + intros q Hq. rewrite O. exact (A' q Hq).
    + intros a Ha. rewrite O, (A' (PMem a)) by discriminate. rewrite (Sp a Ha). change (s (PMem a)) with (seen s (K n) (PMem a)). rewrite <- (A (PMem a)) by discriminate. exact (T a Ha).
  - destruct (placed8_then _ _ _ _ _ _ Pl) as (P1 & P2 & EL). rewrite <- EL.
    destruct (IH1 L P1 (proj1 Dc) m St Hp) as (m1 & X1 & St1 & Hp1). destruct (IH2 _ P2 (proj2 Dc) m1 St1 Hp1) as (m2 & X2 & St2 & Hp2).
    exists m2. split; [exact (plays8_app _ _ _ _ _ _ X1 _ _ _ X2)|split; assumption].
  - destruct (placed8_choose _ _ _ _ _ _ _ Pl) as (Ct & H0 & Gb & P1 & P2 & EL & H2 & Cj). rewrite <- EL.
    set (at2 := L + 4 + bytes (translate (L + 4) c1) + 2) in *.
    pose proof (bytes_nonneg (translate (L + 4) c1)) as N1. pose proof (bytes_nonneg (translate at2 c2)) as N2. assert (Ea : at2 = L + 4 + bytes (translate (L + 4) c1) + 2) by reflexivity.
    destruct (test_plays8 n s m w L b at2 St Ct H0 ltac:(lia) Hp ltac:(lia) Gb) as (m1 & X1 & St1 & Hp1). rewrite Hb in X1, St1, Hp1.
    destruct (IH _ P1 (proj1 Dc) m1 St1 Hp1) as (m2 & X2 & St2 & Hp2).
    destruct (jump_plays8 n' _ m2 w' _ [] _ St2 Cj ltac:(lia) ltac:(lia) Hp2 ltac:(lia)) as (m3 & X3 & St3 & Hp3).
    exists m3. split; [exact (plays8_app _ _ _ _ _ _ X1 _ _ _ (plays8_app _ _ _ _ _ _ X2 _ _ _ X3))|split; assumption].
  - destruct (placed8_choose _ _ _ _ _ _ _ Pl) as (Ct & H0 & Gb & P1 & P2 & EL & H2 & Cj). rewrite <- EL.
    set (at2 := L + 4 + bytes (translate (L + 4) c1) + 2) in *.
    pose proof (bytes_nonneg (translate (L + 4) c1)) as N1. pose proof (bytes_nonneg (translate at2 c2)) as N2. assert (Ea : at2 = L + 4 + bytes (translate (L + 4) c1) + 2) by reflexivity.
    destruct (test_plays8 n s m w L b at2 St Ct H0 ltac:(lia) Hp ltac:(lia) Gb) as (m1 & X1 & St1 & Hp1). rewrite Hb in X1, St1, Hp1.
    destruct (IH _ P2 (proj2 Dc) m1 St1 Hp1) as (m2 & X2 & St2 & Hp2).
    exists m2. split; [exact (plays8_app _ _ _ _ _ _ X1 _ _ _ X2)|split; assumption].
  - destruct (placed8_loop _ _ _ _ _ _ Pl) as (Ct & H0 & Gb & P1 & EL & H2 & Cj). rewrite <- EL.
    set (stop := L + 4 + bytes (translate (L + 4) c) + 2) in *. pose proof (bytes_nonneg (translate (L + 4) c)) as N1. assert (Ea : stop = L + 4 + bytes (translate (L + 4) c) + 2) by reflexivity.
    destruct (test_plays8 n s m w L b stop St Ct H0 ltac:(lia) Hp ltac:(lia) Gb) as (m1 & X1 & St1 & Hp1). rewrite Hb in X1, St1, Hp1.
    exists m1. split; [exact X1|split; assumption].
  - destruct (placed8_loop _ _ _ _ _ _ Pl) as (Ct & H0 & Gb & P1 & EL & H2 & Cj).
    set (stop := L + 4 + bytes (translate (L + 4) c) + 2) in *. pose proof (bytes_nonneg (translate (L + 4) c)) as N1. assert (Ea : stop = L + 4 + bytes (translate (L + 4) c) + 2) by reflexivity.
    destruct (test_plays8 n s m w L b stop St Ct H0 ltac:(lia) Hp ltac:(lia) Gb) as (m1 & X1 & St1 & Hp1). rewrite Hb in X1, St1, Hp1.
    destruct (IH1 _ P1 Dc m1 St1 Hp1) as (m2 & X2 & St2 & Hp2).
    destruct (jump_plays8 n1 _ m2 w1 _ [] _ St2 Cj ltac:(lia) ltac:(lia) Hp2 ltac:(lia)) as (m3 & X3 & St3 & Hp3).
    destruct (IH2 L Pl Dc m3 St3 Hp3) as (m4 & X4 & St4 & Hp4).
    exists m4. split; [|split; assumption].
    exact (plays8_app _ _ _ _ _ _ X1 _ _ _ (plays8_app _ _ _ _ _ _ X2 _ _ _ (plays8_app _ _ _ _ _ _ X3 _ _ _ X4))).
Qed.

(** Coming to an instruction that panics or overwrites the program. *)
Definition plays_into (L : Z) (s : part -> Z) (w : world) n (op : opcode) (s' : part -> Z) (w' : world) n' : Prop :=
  forall m, state8 s m -> observe m PPC = L -> exists m', plays8 n n' m w m' w' /\ state8 s' m' /\ lo <= observe m' PPC < hi /\
    fetches p m' (encode op) /\ operands_ok op /\ jumps_not op.
Lemma cmd_broken8 c s w n op s' w' n' : broken8 e p lo hi K c s w n op s' w' n' -> forall L, placed8 L c -> does P c -> plays_into L s w n op s' w' n'.
Proof.
  induction 1 as [op s w n Wr|c1 c2 s w n op s1 w1 n1 B IH|c1 c2 s w n s1 w1 n1 op s2 w2 n2 E1 B IH|b c1 c2 s w n op s' w' n' Hb B IH|b c1 c2 s w n op s' w' n' Hb B IH
    |b c s w n op s1 w1 n1 Hb B IH|b c s w n s1 w1 n1 op s2 w2 n2 Hb E1 B IH]; intros L Pl Dc m St Hp; cbn [does] in Dc.
  - destruct Pl as (C & H0 & H1 & Ho & J). cbn [translate] in *. change (bytes [op]) with 2 in *.
    exists m. split; [constructor|]. split; [exact St|]. split; [lia|].
    split; [exact (fetch_coded p lo hi text Hlo Hhi s m L [] op St C H0 ltac:(lia) Hp)|split; assumption].
  - destruct (placed8_then _ _ _ _ _ _ Pl) as (P1 & _). exact (IH L P1 (proj1 Dc) m St Hp).
  - destruct (placed8_then _ _ _ _ _ _ Pl) as (P1 & P2 & _).
    destruct (cmd_plays8 _ _ _ _ _ _ _ E1 L P1 (proj1 Dc) m St Hp) as (m1 & X1 & St1 & Hp1). destruct (IH _ P2 (proj2 Dc) m1 St1 Hp1) as (m2 & X2 & R).
    exists m2. split; [exact (plays8_app _ _ _ _ _ _ X1 _ _ _ X2)|exact R].
  - destruct (placed8_choose _ _ _ _ _ _ _ Pl) as (Ct & H0 & Gb & P1 & P2 & EL & H2 & Cj).
    set (at2 := L + 4 + bytes (translate (L + 4) c1) + 2) in *.
    pose proof (bytes_nonneg (translate (L + 4) c1)) as N1. pose proof (bytes_nonneg (translate at2 c2)) as N2. assert (Ea : at2 = L + 4 + bytes (translate (L + 4) c1) + 2) by reflexivity.
    destruct (test_plays8 n s m w L b at2 St Ct H0 ltac:(lia) Hp ltac:(lia) Gb) as (m1 & X1 & St1 & Hp1). rewrite Hb in X1, St1, Hp1.
    destruct (IH _ P1 (proj1 Dc) m1 St1 Hp1) as (m2 & X2 & R). exists m2. split; [exact (plays8_app _ _ _ _ _ _ X1 _ _ _ X2)|exact R].
  - destruct (placed8_choose _ _ _ _ _ _ _ Pl) as (Ct & H0 & Gb & P1 & P2 & EL & H2 & Cj).
    set (at2 := L + 4 + bytes (translate (L + 4) c1) + 2) in *.
    pose proof (bytes_nonneg (translate (L + 4) c1)) as N1. pose proof (bytes_nonneg (translate at2 c2)) as N2. assert (Ea : at2 = L + 4 + bytes (translate (L + 4) c1) + 2) by reflexivity.
    destruct (test_plays8 n s m w L b at2 St Ct H0 ltac:(lia) Hp ltac:(lia) Gb) as (m1 & X1 & St1 & Hp1). rewrite Hb in X1, St1, Hp1.
    destruct (IH _ P2 (proj2 Dc) m1 St1 Hp1) as (m2 & X2 & R). exists m2. split; [exact (plays8_app _ _ _ _ _ _ X1 _ _ _ X2)|exact R].
  - destruct (placed8_loop _ _ _ _ _ _ Pl) as (Ct & H0 & Gb & P1 & EL & H2 & Cj).
    set (stop := L + 4 + bytes (translate (L + 4) c) + 2) in *. pose proof (bytes_nonneg (translate (L + 4) c)) as N1. assert (Ea : stop = L + 4 + bytes (translate (L + 4) c) + 2) by reflexivity.
    destruct (test_plays8 n s m w L b stop St Ct H0 ltac:(lia) Hp ltac:(lia) Gb) as (m1 & X1 & St1 & Hp1). rewrite Hb in X1, St1, Hp1.
    destruct (IH _ P1 Dc m1 St1 Hp1) as (m2 & X2 & R). exists m2. split; [exact (plays8_app _ _ _ _ _ _ X1 _ _ _ X2)|exact R].
  - destruct (placed8_loop _ _ _ _ _ _ Pl) as (Ct & H0 & Gb & P1 & EL & H2 & Cj).
    set (stop := L + 4 + bytes (translate (L + 4) c) + 2) in *. pose proof (bytes_nonneg (translate (L + 4) c)) as N1. assert (Ea : stop = L + 4 + bytes (translate (L + 4) c) + 2) by reflexivity.
    destruct (test_plays8 n s m w L b stop St Ct H0 ltac:(lia) Hp ltac:(lia) Gb) as (m1 & X1 & St1 & Hp1). rewrite Hb in X1, St1, Hp1.
    destruct (cmd_plays8 _ _ _ _ _ _ _ E1 _ P1 Dc m1 St1 Hp1) as (m2 & X2 & St2 & Hp2).
    destruct (jump_plays8 n1 _ m2 w1 _ [] _ St2 Cj ltac:(lia) ltac:(lia) Hp2 ltac:(lia)) as (m3 & X3 & St3 & Hp3).
    destruct (IH L Pl Dc m3 St3 Hp3) as (m4 & X4 & R).
    exists m4. split; [|exact R].
    exact (plays8_app _ _ _ _ _ _ X1 _ _ _ (plays8_app _ _ _ _ _ _ X2 _ _ _ (plays8_app _ _ _ _ _ _ X3 _ _ _ X4))).
Qed.

(** The program ends, breaks, or is still running at instruction [n + k]. *)
Definition lasts8 (k : nat) (L : Z) (s : part -> Z) (w : world) (n : nat) : Prop :=
  forall m, state8 s m -> observe m PPC = L -> exists m' w', plays8 n (n + k) m w m' w'.
Lemma lasts8_from k n n' m w m1 w1 m2 w2 : plays8 n n' m w m1 w1 -> plays8 n' (n' + k) m1 w1 m2 w2 -> exists m3 w3, plays8 n (n + k) m w m3 w3.
Proof.
  intros X Y. pose proof (proj1 (plays8_play _ _ _ _ _ _ X)). destruct (plays8_take _ _ _ _ _ _ (plays8_app _ _ _ _ _ _ X _ _ _ Y) (n + k) ltac:(lia)) as (m3 & w3 & Z & _).
  exists m3, w3. exact Z.
Qed.
Lemma lasts_or_ends8 k : forall c L s w n, placed8 L c -> does P c -> (exists s' w' n', hosted8 e p lo hi K c s w n s' w' n') \/
  (exists op s' w' n', broken8 e p lo hi K c s w n op s' w' n') \/ lasts8 k L s w n.
Proof.
  induction k as [|k IHk].
  { intros c L s w n _ _. right. right. intros m _ _. exists m, w. rewrite Nat.add_0_r. constructor. }
  induction c as [|op|c1 IH1 c2 IH2|b c1 IH1 c2 IH2|b c IH]; intros L s w n Pl Dc; cbn [does] in Dc.
  - left. exists s, w, n. constructor.
  - destruct (effect e p (seen s (K n)) w op) as [[s' w']|] eqn:E.
    + destruct (spares_dec lo hi text (seen s (K n)) s') as [Y|N].
      * left. exists s', w', (S n). constructor; [exact E|]. intros a Ha. exact (Y a Ha).
      * right. left. exists op, s, w, n. constructor. right. exists s', w'. split; assumption.
    + right. left. exists op, s, w, n. constructor. left. exact E.
  - destruct (placed8_then _ _ _ _ _ _ Pl) as (P1 & P2 & _).
    destruct (IH1 L s w n P1 (proj1 Dc)) as [(s1 & w1 & n1 & E1)|[(op & s1 & w1 & n1 & B)|N]];
      [|right; left; exists op, s1, w1, n1; apply broken8_then1; exact B|right; right; exact N].
    destruct (IH2 _ s1 w1 n1 P2 (proj2 Dc)) as [(s2 & w2 & n2 & E2)|[(op & s2 & w2 & n2 & B)|N]];
      [left; exists s2, w2, n2; econstructor; eassumption|right; left; exists op, s2, w2, n2; eapply broken8_then2; eassumption|].
    right. right. intros m St Hp. destruct (cmd_plays8 _ _ _ _ _ _ _ E1 L P1 (proj1 Dc) m St Hp) as (m1 & X1 & St1 & Hp1).
    destruct (N m1 St1 Hp1) as (m2 & w2 & X2). exact (lasts8_from _ _ _ _ _ _ _ _ _ X1 X2).
  - destruct (placed8_choose _ _ _ _ _ _ _ Pl) as (Ct & H0 & Gb & P1 & P2 & EL & H2 & Cj).
    set (at2 := L + 4 + bytes (translate (L + 4) c1) + 2) in *.
    pose proof (bytes_nonneg (translate (L + 4) c1)) as N1. pose proof (bytes_nonneg (translate at2 c2)) as N2. assert (Ea : at2 = L + 4 + bytes (translate (L + 4) c1) + 2) by reflexivity.
    destruct (holds b (seen s (K n))) eqn:Hb.
    + destruct (IH1 (L + 4) (seen s (K n)) w (S n) P1 (proj1 Dc)) as [(s' & w' & n' & E)|[(op & s' & w' & n' & B)|N]];
        [left; do 3 eexists; apply hosted8_yes; eassumption|right; left; exists op, s', w', n'; apply broken8_yes; assumption|].
      right. right. intros m St Hp. destruct (test_plays8 n s m w L b at2 St Ct H0 ltac:(lia) Hp ltac:(lia) Gb) as (m1 & X1 & St1 & Hp1). rewrite Hb in X1, St1, Hp1.
      destruct (N m1 St1 Hp1) as (m2 & w2 & X2). exact (lasts8_from _ _ _ _ _ _ _ _ _ X1 X2).
    + destruct (IH2 at2 (seen s (K (S n))) w (S (S n)) P2 (proj2 Dc)) as [(s' & w' & n' & E)|[(op & s' & w' & n' & B)|N]];
        [left; do 3 eexists; eapply hosted8_no; eassumption|right; left; exists op, s', w', n'; apply broken8_no; assumption|].
      right. right. intros m St Hp. destruct (test_plays8 n s m w L b at2 St Ct H0 ltac:(lia) Hp ltac:(lia) Gb) as (m1 & X1 & St1 & Hp1). rewrite Hb in X1, St1, Hp1.
      destruct (N m1 St1 Hp1) as (m2 & w2 & X2). exact (lasts8_from _ _ _ _ _ _ _ _ _ X1 X2).
  - destruct (placed8_loop _ _ _ _ _ _ Pl) as (Ct & H0 & Gb & P1 & EL & H2 & Cj).
    set (stop := L + 4 + bytes (translate (L + 4) c) + 2) in *. pose proof (bytes_nonneg (translate (L + 4) c)) as N1. assert (Ea : stop = L + 4 + bytes (translate (L + 4) c) + 2) by reflexivity.
    destruct (holds b (seen s (K n))) eqn:Hb; [|left; do 3 eexists; apply hosted8_stop; exact Hb].
    destruct (IH _ (seen s (K n)) w (S n) P1 Dc) as [(s1 & w1 & n1 & E1)|[(op & s1 & w1 & n1 & B)|N]];
      [|right; left; exists op, s1, w1, n1; apply broken8_now; assumption|].
    + destruct (IHk (Loop b c) L (seen s1 (K n1)) w1 (S n1) Pl Dc) as [(s2 & w2 & n2 & E2)|[(op & s2 & w2 & n2 & B)|N]];
        [left; exists s2, w2, n2; eapply hosted8_again; eassumption|right; left; exists op, s2, w2, n2; eapply broken8_later; eassumption|].
      right. right. intros m St Hp.
      destruct (test_plays8 n s m w L b stop St Ct H0 ltac:(lia) Hp ltac:(lia) Gb) as (m1 & X1 & St1 & Hp1). rewrite Hb in X1, St1, Hp1.
      destruct (cmd_plays8 _ _ _ _ _ _ _ E1 _ P1 Dc m1 St1 Hp1) as (m2 & X2 & St2 & Hp2).
      destruct (jump_plays8 n1 _ m2 w1 _ [] _ St2 Cj ltac:(lia) ltac:(lia) Hp2 ltac:(lia)) as (m3 & X3 & St3 & Hp3).
      destruct (N m3 St3 Hp3) as (m4 & w4 & X4).
      pose proof (plays8_app _ _ _ _ _ _ X1 _ _ _ (plays8_app _ _ _ _ _ _ X2 _ _ _ (plays8_app _ _ _ _ _ _ X3 _ _ _ X4))) as X.
      pose proof (proj1 (plays8_play _ _ _ _ _ _ X2)). destruct (plays8_take _ _ _ _ _ _ X (n + S k) ltac:(lia)) as (m5 & w5 & Y & _). exists m5, w5. exact Y.
    + right. right. intros m St Hp.
      destruct (test_plays8 n s m w L b stop St Ct H0 ltac:(lia) Hp ltac:(lia) Gb) as (m1 & X1 & St1 & Hp1). rewrite Hb in X1, St1, Hp1.
      destruct (N m1 St1 Hp1) as (m2 & w2 & X2). exact (lasts8_from _ _ _ _ _ _ _ _ _ X1 X2).
Qed.
End Host.
