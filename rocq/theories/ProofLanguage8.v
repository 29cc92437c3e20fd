(** Executing structured programs translated to CHIP-8 code. *)
From Verif Require Import Base Arith ModelMap ModelStep ModelDisplay ModelChip8 ModelOpsChip8 ModelRunChip8 SpecMap Link6502
  SpecChip8 SpecChip8Parts SpecChip8Run ProofChip8 ProofChip8Step ProofChip8Reach ProofChip8Run
  SpecRoutines8 ProofRoutines8 SpecReplace8 SpecLanguage8.

(** Everything but the program counter agrees. *)
Definition alike (s o : part -> Z) : Prop := forall q, q <> PPC -> o q = s q.

Lemma upd_alike s o q v : alike s o -> alike (upd s q v) (upd o q v).
Proof. intros H r Hr. unfold upd. destruct (part_eqb q r); [reflexivity|]. apply H. exact Hr. Qed.
Lemma advance_alike s o k : alike s o -> alike (advance s k) (advance o k).
Proof. intros H r Hr. unfold advance, upd. destruct r; try (apply H; discriminate). contradiction. Qed.

(** An instruction that does not jump does the same whatever the program
    counter, and moves on by 2. *)
Lemma effect_alike e p s o w op : alike s o -> jumps_not op ->
  match effect e p s w op with
  | None => effect e p o w op = None
  | Some (s', w') => exists o', effect e p o w op = Some (o', w') /\ alike s' o' /\ o' PPC = (o PPC + 2) mod 65536
  end.
Proof.
  intros H J.
  assert (EV : forall x, v o x = v s x) by (intros x; apply H; discriminate).
  assert (EI : o PI = s PI) by (apply H; discriminate).
  assert (EK : o PKey = s PKey) by (apply H; discriminate).
  assert (ED : o PDelay = s PDelay) by (apply H; discriminate).
  assert (EA : o PDelayAt = s PDelayAt) by (apply H; discriminate).
  pose proof (advance_alike s o 2 H) as A2.
  assert (P2 : advance o 2 PPC = (o PPC + 2) mod 65536) by reflexivity.
  assert (U : forall q v, q <> PPC -> upd (advance o 2) q v PPC = (o PPC + 2) mod 65536) by (intros q v Hq; destruct q; try reflexivity; contradiction).
  destruct op; cbn [jumps_not] in J; try contradiction; unfold effect, needs, done; rewrite ?EV, ?EI, ?EK, ?ED, ?EA;
    try reflexivity.
  all: repeat match goal with |- context [if ?b then _ else _] => lazymatch b with context [part_eqb] => fail | context [_ <=? _ + gp_index _] => destruct b eqn:? | _ => destruct b eqn:? end end; try reflexivity.
  all: try (eexists; split; [reflexivity|]; split; [|first [exact P2|apply U; discriminate|reflexivity]]).
  all: try (apply upd_alike; exact A2); try exact A2; try (apply upd_alike; apply upd_alike; exact A2).
  all: intros q Hq; try (destruct q; try reflexivity; try (apply A2; exact Hq); try contradiction).
  - rewrite (A2 (PMem a) Hq). reflexivity.
  - rewrite !H by discriminate. reflexivity.
  - rewrite !H by discriminate. reflexivity.
Qed.

Lemma bytes_app l l' : bytes (l ++ l') = bytes l + bytes l'.
Proof. unfold bytes. rewrite app_length. lia. Qed.
Lemma bytes_nonneg l : 0 <= bytes l.
Proof. unfold bytes. lia. Qed.
Lemma skip_effect e p o w b : good_condition b ->
  effect e p o w (skip_if b) = Some (advance o (if holds b o then 4 else 2), w) /\ operands_ok (skip_if b).
Proof.
  intros G. destruct b; cbn [good_condition skip_if holds operands_ok] in *; unfold effect, needs, done, v;
    repeat match goal with H : _ /\ _ |- _ => destruct H end; rewrite ?has_of by assumption; cbn [andb];
    (split; [|first [assumption|exact I]]); repeat match goal with |- context [?a =? ?b] => destruct (a =? b) end; reflexivity.
Qed.
Lemma holds_alike s o b : alike s o -> holds b o = holds b s.
Proof. intros H. destruct b; cbn [holds]; rewrite ?H by discriminate; reflexivity. Qed.

Section Language.
Context (e : environment) (p : profile) (He : env_ok e) (lo hi : Z).

(** [n] instructions, each of which lies at an address from [lo] up to [hi]. *)
Inductive stays8 : nat -> chip8 -> world -> chip8 -> world -> Prop :=
| stays8_done c w : stays8 0 c w c w
| stays8_step n c w op c1 w1 c2 w2 : lo <= observe c PPC < hi -> fetches p c (encode op) -> step e p c w = Ok (c1, w1) ->
    stays8 n c1 w1 c2 w2 -> stays8 (S n) c w c2 w2.
Lemma stays8_app n c w c1 w1 : stays8 n c w c1 w1 -> forall m c2 w2, stays8 m c1 w1 c2 w2 -> stays8 (n + m) c w c2 w2.
Proof. induction 1; intros m c3 w3 Y; [exact Y|]. cbn [Nat.add]. econstructor; eauto. Qed.
Lemma stays8_instructions n c w c1 w1 : stays8 n c w c1 w1 -> instructions e p n c w c1 w1.
Proof.
  induction 1 as [c w|n c w op c1 w1 c2 w2 Hp F E X (h & Hl & Y)]; [exists []; split; [reflexivity|constructor]|].
  exists ((observe c PPC, encode op) :: h). split; [cbn [length]; lia|]. econstructor; eauto.
Qed.
Lemma stays8_take n : forall m c w c1 w1, stays8 m c w c1 w1 -> (n <= m)%nat -> exists c2 w2, stays8 n c w c2 w2.
Proof.
  induction n as [|n IH]; intros m c w c1 w1 X Hn; [exists c, w; constructor|].
  inversion X; subst; [lia|]. match goal with Y : stays8 _ _ _ _ _ |- _ => destruct (IH _ _ _ _ _ Y ltac:(lia)) as (c3 & w3 & Z) end.
  exists c3, w3. econstructor; eauto.
Qed.
Lemma stays8_last n : forall c w c1 w1, stays8 (S n) c w c1 w1 -> exists c2 w2, stays8 n c w c2 w2 /\ lo <= observe c2 PPC < hi.
Proof.
  induction n as [|n IH]; intros c w c1 w1 X; inversion X; subst.
  - exists c, w. split; [constructor|assumption].
  - match goal with Y : stays8 (S n) _ _ _ _ |- _ => destruct (IH _ _ _ _ Y) as (c3 & w3 & Z & Hp) end.
    exists c3, w3. split; [econstructor; eauto|exact Hp].
Qed.

Context (text : Z -> Z) (Hlo : 0 <= lo) (Hhi : hi < 4096).

(** The machine looks like [s] and has the program in its memory. *)
Definition state8 (s : part -> Z) (c : chip8) : Prop :=
  well_formed c /\ alike s (observe c) /\ forall a, lo <= a < hi -> observe c (PMem a) = text a.
Definition coded (L : Z) (ops : list opcode) : Prop := forall k op, nth_error ops k = Some op ->
  256 * text (L + 2 * Z.of_nat k) + text (L + 2 * Z.of_nat k + 1) = encode op.
Lemma coded_app L l l' : coded L (l ++ l') -> coded L l /\ coded (L + bytes l) l'.
Proof.
  intros C. split; intros k op Hk.
  - apply C. rewrite nth_error_app1; [exact Hk|]. apply nth_error_Some. congruence.
  - replace (L + bytes l + 2 * Z.of_nat k) with (L + 2 * Z.of_nat (length l + k)) by (unfold bytes; lia). apply C.
    rewrite nth_error_app2 by lia. replace (length l + k - length l)%nat with k by lia. exact Hk.
Qed.

Lemma fetch_coded s c L ops op : state8 s c -> coded L (op :: ops) -> lo <= L -> L + 2 <= hi -> observe c PPC = L -> fetches p c (encode op).
Proof.
  intros (_ & _ & T) C H0 H1 Hp. split; [right; lia|]. rewrite Hp. rewrite (Z.mod_small (L + 1)) by lia. rewrite !T by lia.
  pose proof (C 0%nat op eq_refl) as K. replace (L + 2 * Z.of_nat 0) with L in K by lia. symmetry. exact K.
Qed.

(** One instruction with a known effect. *)
Lemma op_executes8 s c w L ops op f w' : state8 s c -> coded L (op :: ops) -> lo <= L -> L + 2 <= hi -> observe c PPC = L -> operands_ok op ->
  effect e p (observe c) w op = Some (f, w') -> exists c', stays8 1 c w c' w' /\ well_formed c' /\ forall q, observe c' q = f q.
Proof.
  intros St C H0 H1 Hp Ho E. pose proof (fetch_coded s c L ops op St C H0 H1 Hp) as F. destruct St as (W & _ & T).
  pose proof (step_effect e p c w W He op Ho F) as X. rewrite E in X. destruct X as (c' & Es & W' & Lk).
  exists c'. split; [|split; [exact W'|exact Lk]]. econstructor; [lia|exact F|exact Es|constructor].
Qed.

Lemma jump_executes8 s c w L ops a : state8 s c -> coded L (JpNonV0Indexed a :: ops) -> lo <= L -> L + 2 <= hi -> observe c PPC = L -> 0 <= a < 4096 ->
  exists c', stays8 1 c w c' w /\ state8 s c' /\ observe c' PPC = a.
Proof.
  intros St C H0 H1 Hp Ha. destruct (op_executes8 s c w L ops _ _ w St C H0 H1 Hp Ha eq_refl) as (c' & X & W' & O).
  destruct St as (W & A & T). exists c'. split; [exact X|]. split; [|rewrite O; reflexivity]. split; [exact W'|]. split.
  - intros q Hq. rewrite O. unfold upd. destruct q; try (apply A; discriminate). contradiction.
  - intros a' Ha'. rewrite O. exact (T a' Ha').
Qed.
Lemma test_executes8 s c w L b a : state8 s c -> coded L [skip_if b; JpNonV0Indexed a] -> lo <= L -> L + 4 <= hi -> observe c PPC = L -> 0 <= a < 4096 ->
  good_condition b -> exists n c', (1 <= n)%nat /\ stays8 n c w c' w /\ state8 s c' /\ observe c' PPC = if holds b s then L + 4 else a.
Proof.
  intros St C H0 H1 Hp Ha G. destruct (skip_effect e p (observe c) w b G) as [E Ho].
  destruct (op_executes8 s c w L _ _ _ w St C H0 ltac:(lia) Hp Ho E) as (c1 & X1 & W1 & O1).
  destruct St as (W & A & T). rewrite (holds_alike s _ b A) in O1.
  assert (St1 : state8 s c1).
  { split; [exact W1|]. split.
    - intros q Hq. rewrite O1. unfold advance, upd. destruct q; try (apply A; discriminate). contradiction.
    - intros a' Ha'. rewrite O1. exact (T a' Ha'). }
  assert (Pc : observe c1 PPC = L + (if holds b s then 4 else 2)).
  { rewrite O1. unfold advance, upd. cbn [part_eqb]. rewrite Hp. destruct (holds b s); lia. }
  destruct (holds b s); [exists 1%nat, c1; split; [lia|split; [exact X1|split; assumption]]|].
  pose proof (coded_app L [skip_if b] [JpNonV0Indexed a] C) as [_ C2].
  destruct (jump_executes8 s c1 w (L + 2) [] a St1 C2 ltac:(lia) ltac:(lia) Pc Ha) as (c2 & X2 & St2 & P2).
  exists (1 + 1)%nat, c2. split; [lia|]. split; [exact (stays8_app _ _ _ _ _ X1 _ _ _ X2)|split; assumption].
Qed.

Definition placed8 (L : Z) (c : structured) : Prop :=
  coded L (translate L c) /\ lo <= L /\ L + bytes (translate L c) <= hi /\ good8 c.
Lemma placed8_then L c1 c2 : placed8 L (Then c1 c2) -> placed8 L c1 /\ placed8 (L + bytes (translate L c1)) c2 /\
  L + bytes (translate L c1) + bytes (translate (L + bytes (translate L c1)) c2) = L + bytes (translate L (Then c1 c2)).
Proof.
  intros (C & H0 & H1 & G1 & G2). cbn [translate] in *. cbv zeta in *. apply coded_app in C. destruct C as [C1 C2]. rewrite bytes_app in *.
  pose proof (bytes_nonneg (translate L c1)). pose proof (bytes_nonneg (translate (L + bytes (translate L c1)) c2)).
  split; [|split; [|lia]]; repeat split; try assumption; lia.
Qed.
Lemma placed8_choose L b c1 c2 : placed8 L (Choose b c1 c2) ->
  let at2 := L + 4 + bytes (translate (L + 4) c1) + 2 in
  coded L [skip_if b; JpNonV0Indexed at2] /\ lo <= L /\ good_condition b /\ placed8 (L + 4) c1 /\ placed8 at2 c2 /\
  at2 + bytes (translate at2 c2) = L + bytes (translate L (Choose b c1 c2)) /\ at2 + bytes (translate at2 c2) <= hi /\
  coded (L + 4 + bytes (translate (L + 4) c1)) [JpNonV0Indexed (at2 + bytes (translate at2 c2))].
Proof.
  intros (C & H0 & H1 & Gb & G1 & G2) at2. cbn [translate] in *. cbv zeta in *. fold at2 in C, H1 |- *.
  rewrite !bytes_app in *. change (bytes [_; _]) with 4 in *. change (bytes [_]) with 2 in *.
  apply coded_app in C. destruct C as [C0 C]. change (bytes [_; _]) with 4 in C. apply coded_app in C. destruct C as [C1 C].
  apply coded_app in C. destruct C as [Cj C2]. change (bytes [_]) with 2 in C2.
  pose proof (bytes_nonneg (translate (L + 4) c1)). pose proof (bytes_nonneg (translate at2 c2)).
  split; [exact C0|]. split; [exact H0|]. split; [exact Gb|]. split; [|split; [|split; [|split]]].
  - repeat split; try assumption; unfold at2 in *; lia.
  - repeat split; try assumption; unfold at2 in *; lia.
  - unfold at2. lia.
  - unfold at2 in *. lia.
  - exact Cj.
Qed.
Lemma placed8_loop L b c : placed8 L (Loop b c) ->
  let stop := L + 4 + bytes (translate (L + 4) c) + 2 in
  coded L [skip_if b; JpNonV0Indexed stop] /\ lo <= L /\ good_condition b /\ placed8 (L + 4) c /\
  stop = L + bytes (translate L (Loop b c)) /\ stop <= hi /\ coded (L + 4 + bytes (translate (L + 4) c)) [JpNonV0Indexed L].
Proof.
  intros (C & H0 & H1 & Gb & G1) stop. cbn [translate] in *. cbv zeta in *. fold stop in C, H1 |- *.
  rewrite !bytes_app in *. change (bytes [_; _]) with 4 in *. change (bytes [_]) with 2 in *.
  apply coded_app in C. destruct C as [C0 C]. change (bytes [_; _]) with 4 in C. apply coded_app in C. destruct C as [C1 Cj].
  pose proof (bytes_nonneg (translate (L + 4) c)).
  split; [exact C0|]. split; [exact H0|]. split; [exact Gb|]. split; [|split; [|split]].
  - repeat split; try assumption; unfold stop in *; lia.
  - unfold stop. lia.
  - unfold stop in *. lia.
  - exact Cj.
Qed.

Definition runs_to8 (L : Z) (c : structured) (s : part -> Z) (w : world) (s' : part -> Z) (w' : world) : Prop :=
  forall m, state8 s m -> observe m PPC = L -> exists n m', stays8 n m w m' w' /\ state8 s' m' /\ observe m' PPC = L + bytes (translate L c).

Lemma cmd_executes8 c s w s' w' : ends8 e p lo hi c s w s' w' -> forall L, placed8 L c -> runs_to8 L c s w s' w'.
Proof.
  induction 1 as [s w|op s w s' w' E Sp|c1 c2 s w s1 w1 s2 w2 E1 IH1 E2 IH2|b c1 c2 s w s' w' E IH|b c s w Hb|b c s w s1 w1 s2 w2 Hb E1 IH1 E2 IH2];
    intros L Pl m St Hp.
  - exists 0%nat, m. split; [constructor|]. split; [exact St|]. cbn [translate]. change (bytes []) with 0. lia.
  - destruct Pl as (C & H0 & H1 & Ho & J). cbn [translate] in *. change (bytes [op]) with 2 in *. pose proof St as (W & A & T).
    pose proof (effect_alike e p s (observe m) w op A J) as K. rewrite E in K. destruct K as (o' & E' & A' & P').
    destruct (op_executes8 s m w L [] op o' w' St C H0 ltac:(lia) Hp Ho E') as (m' & X & W' & O).
    exists 1%nat, m'. split; [exact X|]. split; [|rewrite O, P', Hp; lia]. split; [exact W'|]. split.
    + intros q Hq. rewrite O. exact (A' q Hq).
    + intros a Ha. rewrite O, (A' (PMem a)) by discriminate. rewrite (Sp a Ha). rewrite <- (A (PMem a)) by discriminate. exact (T a Ha).
  - destruct (placed8_then _ _ _ Pl) as (P1 & P2 & EL). rewrite <- EL.
    destruct (IH1 L P1 m St Hp) as (n1 & m1 & X1 & St1 & Hp1). destruct (IH2 _ P2 m1 St1 Hp1) as (n2 & m2 & X2 & St2 & Hp2).
    exists (n1 + n2)%nat, m2. split; [exact (stays8_app _ _ _ _ _ X1 _ _ _ X2)|split; assumption].
  - destruct (placed8_choose _ _ _ _ Pl) as (Ct & H0 & Gb & P1 & P2 & EL & H2 & Cj). rewrite <- EL.
    set (at2 := L + 4 + bytes (translate (L + 4) c1) + 2) in *.
    pose proof (bytes_nonneg (translate (L + 4) c1)) as N1. pose proof (bytes_nonneg (translate at2 c2)) as N2. assert (Ea : at2 = L + 4 + bytes (translate (L + 4) c1) + 2) by reflexivity.
    destruct (test_executes8 s m w L b at2 St Ct H0 ltac:(lia) Hp ltac:(lia) Gb) as (n1 & m1 & _ & X1 & St1 & Hp1).
    destruct (holds b s).
    + destruct (IH _ P1 m1 St1 Hp1) as (n2 & m2 & X2 & St2 & Hp2).
      destruct (jump_executes8 _ m2 w' _ [] _ St2 Cj ltac:(lia) ltac:(lia) Hp2 ltac:(lia)) as (m3 & X3 & St3 & Hp3).
      exists (n1 + (n2 + 1))%nat, m3. split; [exact (stays8_app _ _ _ _ _ X1 _ _ _ (stays8_app _ _ _ _ _ X2 _ _ _ X3))|split; assumption].
    + destruct (IH _ P2 m1 St1 Hp1) as (n2 & m2 & X2 & St2 & Hp2).
      exists (n1 + n2)%nat, m2. split; [exact (stays8_app _ _ _ _ _ X1 _ _ _ X2)|split; assumption].
  - destruct (placed8_loop _ _ _ Pl) as (Ct & H0 & Gb & P1 & EL & H2 & Cj). rewrite <- EL.
    set (stop := L + 4 + bytes (translate (L + 4) c) + 2) in *. pose proof (bytes_nonneg (translate (L + 4) c)) as N1. assert (Ea : stop = L + 4 + bytes (translate (L + 4) c) + 2) by reflexivity.
    destruct (test_executes8 s m w L b stop St Ct H0 ltac:(lia) Hp ltac:(lia) Gb) as (n1 & m1 & _ & X1 & St1 & Hp1).
    rewrite Hb in Hp1. exists n1, m1. split; [exact X1|split; assumption].
  - destruct (placed8_loop _ _ _ Pl) as (Ct & H0 & Gb & P1 & EL & H2 & Cj).
    set (stop := L + 4 + bytes (translate (L + 4) c) + 2) in *. pose proof (bytes_nonneg (translate (L + 4) c)) as N1. assert (Ea : stop = L + 4 + bytes (translate (L + 4) c) + 2) by reflexivity.
    destruct (test_executes8 s m w L b stop St Ct H0 ltac:(lia) Hp ltac:(lia) Gb) as (n1 & m1 & _ & X1 & St1 & Hp1).
    rewrite Hb in Hp1. destruct (IH1 _ P1 m1 St1 Hp1) as (n2 & m2 & X2 & St2 & Hp2).
    destruct (jump_executes8 _ m2 w1 _ [] _ St2 Cj ltac:(lia) ltac:(lia) Hp2 ltac:(lia)) as (m3 & X3 & St3 & Hp3).
    destruct (IH2 L Pl m3 St3 Hp3) as (n4 & m4 & X4 & St4 & Hp4).
    exists (n1 + (n2 + (1 + n4)))%nat, m4. split; [|split; assumption].
    exact (stays8_app _ _ _ _ _ X1 _ _ _ (stays8_app _ _ _ _ _ X2 _ _ _ (stays8_app _ _ _ _ _ X3 _ _ _ X4))).
Qed.

(** Coming to an instruction that panics or overwrites the program. *)
Definition comes_to (L : Z) (s : part -> Z) (w : world) (op : opcode) (s' : part -> Z) (w' : world) : Prop :=
  forall m, state8 s m -> observe m PPC = L -> exists n m', stays8 n m w m' w' /\ state8 s' m' /\ lo <= observe m' PPC < hi /\
    fetches p m' (encode op) /\ operands_ok op /\ jumps_not op.

Lemma cmd_breaks8 c s w op s' w' : breaks8 e p lo hi c s w op s' w' -> forall L, placed8 L c -> comes_to L s w op s' w'.
Proof.
  induction 1 as [op s w Wr|c1 c2 s w op s1 w1 B IH|c1 c2 s w s1 w1 op s2 w2 E1 B IH|b c1 c2 s w op s' w' B IH|b c s w op s1 w1 Hb B IH|b c s w s1 w1 op s2 w2 Hb E1 B IH];
    intros L Pl m St Hp.
  - destruct Pl as (C & H0 & H1 & Ho & J). cbn [translate] in *. change (bytes [op]) with 2 in *.
    exists 0%nat, m. split; [constructor|]. split; [exact St|]. split; [lia|].
    split; [exact (fetch_coded s m L [] op St C H0 ltac:(lia) Hp)|split; assumption].
  - destruct (placed8_then _ _ _ Pl) as (P1 & _). exact (IH L P1 m St Hp).
  - destruct (placed8_then _ _ _ Pl) as (P1 & P2 & _).
    destruct (cmd_executes8 _ _ _ _ _ E1 L P1 m St Hp) as (n1 & m1 & X1 & St1 & Hp1). destruct (IH _ P2 m1 St1 Hp1) as (n2 & m2 & X2 & R).
    exists (n1 + n2)%nat, m2. split; [exact (stays8_app _ _ _ _ _ X1 _ _ _ X2)|exact R].
  - destruct (placed8_choose _ _ _ _ Pl) as (Ct & H0 & Gb & P1 & P2 & EL & H2 & Cj).
    set (at2 := L + 4 + bytes (translate (L + 4) c1) + 2) in *.
    pose proof (bytes_nonneg (translate (L + 4) c1)) as N1. pose proof (bytes_nonneg (translate at2 c2)) as N2. assert (Ea : at2 = L + 4 + bytes (translate (L + 4) c1) + 2) by reflexivity.
    destruct (test_executes8 s m w L b at2 St Ct H0 ltac:(lia) Hp ltac:(lia) Gb) as (n1 & m1 & _ & X1 & St1 & Hp1).
    destruct (holds b s); [destruct (IH _ P1 m1 St1 Hp1) as (n2 & m2 & X2 & R)|destruct (IH _ P2 m1 St1 Hp1) as (n2 & m2 & X2 & R)];
      (exists (n1 + n2)%nat, m2; split; [exact (stays8_app _ _ _ _ _ X1 _ _ _ X2)|exact R]).
  - destruct (placed8_loop _ _ _ Pl) as (Ct & H0 & Gb & P1 & EL & H2 & Cj).
    set (stop := L + 4 + bytes (translate (L + 4) c) + 2) in *. pose proof (bytes_nonneg (translate (L + 4) c)) as N1. assert (Ea : stop = L + 4 + bytes (translate (L + 4) c) + 2) by reflexivity.
    destruct (test_executes8 s m w L b stop St Ct H0 ltac:(lia) Hp ltac:(lia) Gb) as (n1 & m1 & _ & X1 & St1 & Hp1).
    rewrite Hb in Hp1. destruct (IH _ P1 m1 St1 Hp1) as (n2 & m2 & X2 & R).
    exists (n1 + n2)%nat, m2. split; [exact (stays8_app _ _ _ _ _ X1 _ _ _ X2)|exact R].
  - destruct (placed8_loop _ _ _ Pl) as (Ct & H0 & Gb & P1 & EL & H2 & Cj).
    set (stop := L + 4 + bytes (translate (L + 4) c) + 2) in *. pose proof (bytes_nonneg (translate (L + 4) c)) as N1. assert (Ea : stop = L + 4 + bytes (translate (L + 4) c) + 2) by reflexivity.
    destruct (test_executes8 s m w L b stop St Ct H0 ltac:(lia) Hp ltac:(lia) Gb) as (n1 & m1 & _ & X1 & St1 & Hp1).
    rewrite Hb in Hp1. destruct (cmd_executes8 _ _ _ _ _ E1 _ P1 m1 St1 Hp1) as (n2 & m2 & X2 & St2 & Hp2).
    destruct (jump_executes8 _ m2 w1 _ [] _ St2 Cj ltac:(lia) ltac:(lia) Hp2 ltac:(lia)) as (m3 & X3 & St3 & Hp3).
    destruct (IH L Pl m3 St3 Hp3) as (n4 & m4 & X4 & R).
    exists (n1 + (n2 + (1 + n4)))%nat, m4. split; [|exact R].
    exact (stays8_app _ _ _ _ _ X1 _ _ _ (stays8_app _ _ _ _ _ X2 _ _ _ (stays8_app _ _ _ _ _ X3 _ _ _ X4))).
Qed.

(** The program ends, breaks, or is still running after [n] instructions. *)
Definition still8 (n : nat) (L : Z) (s : part -> Z) (w : world) : Prop :=
  forall m, state8 s m -> observe m PPC = L -> exists m' w', stays8 n m w m' w'.

Lemma spares_dec s s' : {spares lo hi s s'} + {~ spares lo hi s s'}.
Proof.
  assert (K : forall n, {forall a, lo <= a < lo + Z.of_nat n -> s' (PMem a) = s (PMem a)} + {~ forall a, lo <= a < lo + Z.of_nat n -> s' (PMem a) = s (PMem a)}).
  { induction n as [|n [Y|N]]; [left; intros; lia| |right; intros K; apply N; intros a Ha; apply K; lia].
    destruct (Z.eq_dec (s' (PMem (lo + Z.of_nat n))) (s (PMem (lo + Z.of_nat n)))) as [E|E].
    - left. intros a Ha. destruct (Z.eq_dec a (lo + Z.of_nat n)) as [->|]; [exact E|apply Y; lia].
    - right. intros K. apply E, K. lia. }
  destruct (K (Z.to_nat (hi - lo))) as [Y|N]; [left|right].
  - intros a Ha. apply Y. lia.
  - intros K1. apply N. intros a Ha. apply K1. lia.
Qed.

Lemma still_or_ends8 n : forall c L s w, placed8 L c -> (exists s' w', ends8 e p lo hi c s w s' w') \/
  (exists op s' w', breaks8 e p lo hi c s w op s' w') \/ still8 n L s w.
Proof.
  induction n as [|n IHn].
  { intros c L s w _. right. right. intros m _ _. exists m, w. constructor. }
  induction c as [|op|c1 IH1 c2 IH2|b c1 IH1 c2 IH2|b c IH]; intros L s w Pl.
  - left. exists s, w. constructor.
  - destruct (effect e p s w op) as [[s' w']|] eqn:E.
    + destruct (spares_dec s s') as [Y|N].
      * left. exists s', w'. constructor; assumption.
      * right. left. exists op, s, w. constructor. right. exists s', w'. split; assumption.
    + right. left. exists op, s, w. constructor. left. exact E.
  - destruct (placed8_then _ _ _ Pl) as (P1 & P2 & _).
    destruct (IH1 L s w P1) as [(s1 & w1 & E1)|[(op & s1 & w1 & B)|N]];
      [|right; left; exists op, s1, w1; apply breaks8_then1; exact B|right; right; exact N].
    destruct (IH2 _ s1 w1 P2) as [(s2 & w2 & E2)|[(op & s2 & w2 & B)|N]];
      [left; exists s2, w2; econstructor; eassumption|right; left; exists op, s2, w2; eapply breaks8_then2; eassumption|].
    right. right. intros m St Hp. destruct (cmd_executes8 _ _ _ _ _ E1 L P1 m St Hp) as (n1 & m1 & X1 & St1 & Hp1).
    destruct (N m1 St1 Hp1) as (m2 & w2 & X2). pose proof (stays8_app _ _ _ _ _ X1 _ _ _ X2) as X.
    exact (stays8_take (S n) _ _ _ _ _ X ltac:(lia)).
  - destruct (placed8_choose _ _ _ _ Pl) as (Ct & H0 & Gb & P1 & P2 & EL & H2 & Cj).
    set (at2 := L + 4 + bytes (translate (L + 4) c1) + 2) in *.
    pose proof (bytes_nonneg (translate (L + 4) c1)) as N1. pose proof (bytes_nonneg (translate at2 c2)) as N2. assert (Ea : at2 = L + 4 + bytes (translate (L + 4) c1) + 2) by reflexivity.
    assert (K : (exists s' w', ends8 e p lo hi (if holds b s then c1 else c2) s w s' w') \/
      (exists op s' w', breaks8 e p lo hi (if holds b s then c1 else c2) s w op s' w') \/ still8 (S n) (if holds b s then L + 4 else at2) s w).
    { destruct (holds b s); [apply IH1|apply IH2]; assumption. }
    destruct K as [(s' & w' & E)|[(op & s' & w' & B)|N]];
      [left; exists s', w'; constructor; exact E|right; left; exists op, s', w'; constructor; exact B|].
    right. right. intros m St Hp.
    destruct (test_executes8 s m w L b at2 St Ct H0 ltac:(lia) Hp ltac:(lia) Gb) as (n1 & m1 & _ & X1 & St1 & Hp1).
    destruct (N m1 St1 Hp1) as (m2 & w2 & X2). pose proof (stays8_app _ _ _ _ _ X1 _ _ _ X2) as X.
    exact (stays8_take (S n) _ _ _ _ _ X ltac:(lia)).
  - destruct (placed8_loop _ _ _ Pl) as (Ct & H0 & Gb & P1 & EL & H2 & Cj).
    set (stop := L + 4 + bytes (translate (L + 4) c) + 2) in *. pose proof (bytes_nonneg (translate (L + 4) c)) as N1. assert (Ea : stop = L + 4 + bytes (translate (L + 4) c) + 2) by reflexivity.
    destruct (holds b s) eqn:Hb; [|left; exists s, w; apply ends8_stop; exact Hb].
    destruct (IH _ s w P1) as [(s1 & w1 & E1)|[(op & s1 & w1 & B)|N]];
      [|right; left; exists op, s1, w1; apply breaks8_now; assumption|].
    + destruct (IHn (Loop b c) L s1 w1 Pl) as [(s2 & w2 & E2)|[(op & s2 & w2 & B)|N]];
        [left; exists s2, w2; eapply ends8_again; eassumption|right; left; exists op, s2, w2; eapply breaks8_later; eassumption|].
      right. right. intros m St Hp.
      destruct (test_executes8 s m w L b stop St Ct H0 ltac:(lia) Hp ltac:(lia) Gb) as (n1 & m1 & Hn & X1 & St1 & Hp1). rewrite Hb in Hp1.
      destruct (cmd_executes8 _ _ _ _ _ E1 _ P1 m1 St1 Hp1) as (n2 & m2 & X2 & St2 & Hp2).
      destruct (jump_executes8 _ m2 w1 _ [] _ St2 Cj ltac:(lia) ltac:(lia) Hp2 ltac:(lia)) as (m3 & X3 & St3 & Hp3).
      destruct (N m3 St3 Hp3) as (m4 & w4 & X4).
      pose proof (stays8_app _ _ _ _ _ X1 _ _ _ (stays8_app _ _ _ _ _ X2 _ _ _ (stays8_app _ _ _ _ _ X3 _ _ _ X4))) as X.
      exact (stays8_take (S n) _ _ _ _ _ X ltac:(lia)).
    + right. right. intros m St Hp.
      destruct (test_executes8 s m w L b stop St Ct H0 ltac:(lia) Hp ltac:(lia) Gb) as (n1 & m1 & _ & X1 & St1 & Hp1). rewrite Hb in Hp1.
      destruct (N m1 St1 Hp1) as (m2 & w2 & X2). pose proof (stays8_app _ _ _ _ _ X1 _ _ _ X2) as X.
      exact (stays8_take (S n) _ _ _ _ _ X ltac:(lia)).
Qed.
End Language.
Arguments stays8_instructions {e p lo hi n c w c1 w1}.
Arguments stays8_take {e p lo hi} n {m c w c1 w1}.
Arguments stays8_last {e p lo hi n c w c1 w1}.
