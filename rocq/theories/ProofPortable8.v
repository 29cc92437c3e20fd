(** Executing structured programs on the CHIP-8 of the technical reference. *)
From Verif Require Import Base Arith ModelDisplay ModelChip8 ModelOpsChip8 ModelRunChip8 SpecChip8 SpecChip8Parts
  SpecReference8 SpecLanguage8 ProofLanguage8 SpecPortable8.

Lemma existsb_same {A} (f g : A -> bool) l : (forall x, f x = g x) -> existsb f l = existsb g l.
Proof. intros H. induction l as [|x l IH]; [reflexivity|]. cbn [existsb]. rewrite H, IH. reflexivity. Qed.

Section Alike.
Context (e : environment) (s o : part -> Z) (H : but_for_pc s o).
Lemma rv_alike x : rv o x = rv s x.
Proof. apply H. discriminate. Qed.
Lemma upd_but g h q v : but_for_pc g h -> but_for_pc (upd g q v) (upd h q v).
Proof. intros K r Hr. unfold upd. destruct (part_eqb q r); [reflexivity|]. apply K. exact Hr. Qed.
Lemma onward_but g h : but_for_pc g h -> but_for_pc (onward s g) (onward o h).
Proof. intros K r Hr. unfold onward, goto, upd. destruct r; try (apply K; discriminate). contradiction. Qed.
Lemma skip_but b : but_for_pc s (skip o b).
Proof. intros r Hr. unfold skip, goto, upd. destruct r; try (apply H; discriminate). contradiction. Qed.
Lemma sprite_alike x y n a b : sprite_at o x y n a b = sprite_at s x y n a b.
Proof. unfold sprite_at. rewrite !H by discriminate. reflexivity. Qed.
Lemma collision_alike x y n : collision o x y n = collision s x y n.
Proof. unfold collision. apply existsb_same. intros a. apply existsb_same. intros b. rewrite sprite_alike, H by discriminate. reflexivity. Qed.
Lemma onward_pc g : onward o g PPC = (o PPC + 2) mod 65536.
Proof. reflexivity. Qed.

Lemma reference_alike w op s' w' : jumps_not op -> ~ waits op s -> reference e s w op = Some (s', w') ->
  exists o', reference e o w op = Some (o', w') /\ but_for_pc s' o' /\ o' PPC = (o PPC + 2) mod 65536.
Proof.
  intros J Nw E.
  assert (EI : o PI = s PI) by (apply H; discriminate).
  assert (EK : o PKey = s PKey) by (apply H; discriminate).
  assert (ED : o PDelay = s PDelay) by (apply H; discriminate).
  assert (EA : o PDelayAt = s PDelayAt) by (apply H; discriminate).
  destruct op; cbn [jumps_not] in J; try contradiction; cbn [waits] in Nw; unfold reference, same_world, flagged in *;
    rewrite ?rv_alike, ?collision_alike, ?EI, ?EK, ?ED, ?EA;
    repeat match type of E with context [if ?b then _ else _] => lazymatch b with context [part_eqb] => fail | _ => destruct b eqn:? end end;
    try discriminate E.
  all: try (exfalso; apply Nw; lia).
  all: injection E as Es1 <-; subst s'.
  all: eexists; split; [reflexivity|]; split; [|reflexivity].
  all: try apply onward_but; unfold set; repeat apply upd_but; try exact H.
  all: intros q Hq; destruct q; rewrite ?sprite_alike, ?H by discriminate; try reflexivity.
  all: contradiction Hq; reflexivity.
Qed.
Lemma waiting_alike w op : waits op s -> reference e o w op = Some (o, w).
Proof. destruct op; try contradiction. cbn [waits]. intros K. unfold reference, same_world. rewrite H by discriminate. rewrite K. reflexivity. Qed.
Lemma departs_alike w op : jumps_not op \/ is_jump op = true \/ (exists b, op = skip_if b) -> departs8 e o w op <-> departs8 e s w op.
Proof.
  intros J. unfold departs8. destruct op; rewrite ?rv_alike, ?H by discriminate; tauto.
Qed.
Lemma holds_but b : holds b o = holds b s.
Proof. exact (holds_alike s o b H). Qed.
Lemma test_reference w b : reference e o w (skip_if b) = Some (skip o (holds b s), w).
Proof. rewrite <- holds_but. destruct b; reflexivity. Qed.
End Alike.

Section Run.
Context (e : environment) (lo hi : Z).
(** Executing instructions all of which are in [Q]. *)
Context (Q : opcode -> (part -> Z) -> world -> Prop).
Inductive via : list opcode -> ref_state -> ref_state -> Prop :=
| via_here st : via [] st st
| via_on op ops f w f1 w1 st : lo <= f PPC < hi -> ref_fetches f op -> reference e f w op = Some (f1, w1) -> Q op f w ->
    via ops (f1, w1) st -> via (op :: ops) (f, w) st.
Lemma via_app ops1 st st1 : via ops1 st st1 -> forall ops2 st2, via ops2 st1 st2 -> via (ops1 ++ ops2) st st2.
Proof. induction 1; intros ops2 st2 Y; [exact Y|]. cbn [app]. econstructor; eauto. Qed.

Context (text : Z -> Z) (Hlo : 0 <= lo) (Hhi : hi < 4096).

Definition lies (L : Z) (ops : list opcode) : Prop := forall k op, nth_error ops k = Some op ->
  256 * text (L + 2 * Z.of_nat k) + text (L + 2 * Z.of_nat k + 1) = encode op.
Lemma lies_app L l l' : lies L (l ++ l') -> lies L l /\ lies (L + bytes l) l'.
Proof.
  intros C. split; intros k op Hk.
  - apply C. rewrite nth_error_app1; [exact Hk|]. apply nth_error_Some. congruence.
  - replace (L + bytes l + 2 * Z.of_nat k) with (L + 2 * Z.of_nat (length l + k)) by (unfold bytes; lia). apply C.
    rewrite nth_error_app2 by lia. replace (length l + k - length l)%nat with k by lia. exact Hk.
Qed.
Definition sits (L : Z) (c : structured) : Prop :=
  lies L (translate L c) /\ lo <= L /\ L + bytes (translate L c) <= hi /\ proper c.

(** From address [a] on lies the code for what is to be done, up to [hi]. *)
Inductive leads : list structured -> Z -> Prop :=
| leads_end : leads [] hi
| leads_code c k L : sits L c -> leads k (L + bytes (translate L c)) -> leads (c :: k) L
| leads_jump k a b : lies a [JpNonV0Indexed b] -> lo <= a -> a + 2 <= hi -> lo <= b -> b <= hi -> leads k b -> leads k a.

Definition stands (s f : part -> Z) : Prop := but_for_pc s f /\ forall a, lo <= a < hi -> f (PMem a) = text a.

Lemma fetch_lies s f L op ops : stands s f -> lies L (op :: ops) -> lo <= L -> L + 2 <= hi -> f PPC = L -> operands_ok op -> ref_fetches f op.
Proof.
  intros (_ & T) C H0 H1 Hp Ho. split; [exact Ho|]. rewrite Hp. split; [lia|]. rewrite !T by lia.
  pose proof (C 0%nat op eq_refl) as K. replace (L + 2 * Z.of_nat 0) with L in K by lia. symmetry. exact K.
Qed.
Context (Qjump : forall a f w, Q (JpNonV0Indexed a) f w).
Context (Qalike : forall op s f w, jumps_not op \/ (exists b, op = skip_if b) -> but_for_pc s f -> Q op s w -> Q op f w).
Lemma jump_goes s f w a b : stands s f -> lies a [JpNonV0Indexed b] -> lo <= a -> a + 2 <= hi -> lo <= b -> b <= hi -> f PPC = a ->
  exists f', via [JpNonV0Indexed b] (f, w) (f', w) /\ stands s f' /\ f' PPC = b.
Proof.
  intros St C H0 H1 Hb0 Hb1 Hp. exists (goto f b).
  split; [|split; [|reflexivity]].
  - eapply via_on; [lia|exact (fetch_lies s f a _ _ St C H0 H1 Hp ltac:(cbn [operands_ok]; lia))|reflexivity|apply Qjump|constructor].
  - destruct St as (A & T). split; [|intros a' Ha'; exact (T a' Ha')].
    intros q Hq. unfold goto, upd. destruct q; try (apply A; discriminate). contradiction.
Qed.

(** The jumps up to the next instruction of the program. *)
Lemma settle s w k a : leads k a -> forall f, stands s f -> f PPC = a ->
  exists ops f', via ops (f, w) (f', w) /\ stands s f' /\ without_jumps ops = [] /\
    match k with
    | [] => f' PPC = hi
    | c :: k' => sits (f' PPC) c /\ leads k' (f' PPC + bytes (translate (f' PPC) c))
    end.
Proof.
  induction 1 as [|c k L Si Le IH|k a b C H0 H1 Hb0 Hb1 Le IH]; intros f St Hp.
  - exists [], f. split; [constructor|]. split; [exact St|]. split; [reflexivity|exact Hp].
  - exists [], f. split; [constructor|]. split; [exact St|]. split; [reflexivity|]. rewrite Hp. split; assumption.
  - destruct (jump_goes s f w a b St C H0 H1 Hb0 Hb1 Hp) as (f1 & X1 & St1 & Hp1).
    destruct (IH f1 St1 Hp1) as (ops & f2 & X2 & St2 & N & R). exists ([JpNonV0Indexed b] ++ ops), f2.
    split; [exact (via_app _ _ _ X1 _ _ X2)|]. split; [exact St2|]. split; [exact N|exact R].
Qed.

Lemma test_goes s f w L b a : stands s f -> lies L [skip_if b; JpNonV0Indexed a] -> lo <= L -> L + 4 <= hi -> f PPC = L -> lo <= a -> a <= hi ->
  operands_ok (skip_if b) -> Q (skip_if b) s w ->
  exists ops f', via ops (f, w) (f', w) /\ stands s f' /\ without_jumps ops = [skip_if b] /\ f' PPC = if holds b s then L + 4 else a.
Proof.
  intros St C H0 H1 Hp Ha0 Ha1 Ho Hq. pose proof St as (A & T).
  assert (Nj : without_jumps [skip_if b] = [skip_if b]) by (destruct b; reflexivity).
  assert (X1 : via [skip_if b] (f, w) (skip f (holds b s), w)).
  { eapply via_on; [lia|exact (fetch_lies s f L _ _ St C H0 ltac:(lia) Hp Ho)|apply test_reference; exact A| |constructor].
    apply (Qalike _ s); [right; exists b; reflexivity|exact A|exact Hq]. }
  assert (St1 : stands s (skip f (holds b s))).
  { split; [apply skip_but; exact A|]. intros a' Ha'. exact (T a' Ha'). }
  assert (Pc : skip f (holds b s) PPC = L + (if holds b s then 4 else 2)).
  { unfold skip, goto, upd. cbn [part_eqb]. rewrite Hp. destruct (holds b s); lia. }
  destruct (holds b s) eqn:Hb.
  - exists [skip_if b]. eexists. split; [exact X1|]. split; [exact St1|]. split; [exact Nj|exact Pc].
  - pose proof (lies_app L [skip_if b] [JpNonV0Indexed a] C) as [_ C2]. change (bytes [skip_if b]) with 2 in C2.
    destruct (jump_goes s _ w (L + 2) a St1 C2 ltac:(lia) ltac:(lia) Ha0 Ha1 Pc) as (f2 & X2 & St2 & P2).
    exists ([skip_if b] ++ [JpNonV0Indexed a]), f2. split; [exact (via_app _ _ _ X1 _ _ X2)|]. split; [exact St2|].
    split; [|exact P2]. unfold without_jumps in *. rewrite filter_app, Nj. reflexivity.
Qed.

Lemma proceeds_goes t l t' : proceeds e lo hi t l t' -> Forall (fun v => Q (performed v) (before v) (when v)) l ->
  forall f a, leads (todo t) a -> stands (parts t) f -> f PPC = a ->
  exists ops f' a', via ops (f, around t) (f', around t') /\ without_jumps ops = map performed l /\
    leads (todo t') a' /\ stands (parts t') f' /\ f' PPC = a'.
Proof.
  intros X HQ f a Le St Hp. destruct (settle _ (around t) _ _ Le f St Hp) as (ops0 & f0 & X0 & St0 & N0 & R).
  assert (NA : forall ops, without_jumps (ops0 ++ ops) = without_jumps ops).
  { intros ops. unfold without_jumps in *. rewrite filter_app, N0. reflexivity. }
  destruct X as [k s w|c1 c2 k s w|op k s w s' w' Nw E Sp|op k s w Wt|b c1 c2 k s w|b c k s w]; cbn [todo parts around] in *;
    destruct R as (Si & Lk); remember (f0 PPC) as L eqn:HL; symmetry in HL; pose proof Si as (C & H0 & H1 & Pr).
  - exists ops0, f0, L. split; [exact X0|]. split; [exact N0|]. split; [|split; assumption].
    cbn [translate] in Lk. change (bytes []) with 0 in Lk. replace (L + 0) with L in Lk by lia. exact Lk.
  - exists ops0, f0, L. split; [exact X0|]. split; [exact N0|]. split; [|split; assumption].
    cbn [translate] in *. cbv zeta in *. apply lies_app in C. destruct C as [C1 C2]. rewrite bytes_app in *.
    pose proof (bytes_nonneg (translate L c1)). pose proof (bytes_nonneg (translate (L + bytes (translate L c1)) c2)). destruct Pr as [Pr1 Pr2].
    apply leads_code; [repeat split; try assumption; lia|]. apply leads_code; [repeat split; try assumption; lia|].
    rewrite <- Z.add_assoc. exact Lk.
  - inversion_clear HQ as [|? ? Q1 _]. cbn [performed before when] in Q1. destruct Pr as [Ho J]. cbn [translate] in *. change (bytes [op]) with 2 in *.
    pose proof St0 as (A & T). destruct (reference_alike e s f0 A w op s' w' J Nw E) as (o' & E' & A' & P').
    exists (ops0 ++ [op]), o', (L + 2). split; [|split; [|split; [exact Lk|split]]].
    + apply (via_app _ _ _ X0). eapply via_on; [lia|exact (fetch_lies s f0 L _ _ St0 C H0 ltac:(lia) HL Ho)|exact E'| |constructor].
      apply (Qalike _ s); [left; exact J|exact A|exact Q1].
    + rewrite NA. cbn [map performed]. destruct op; try contradiction; reflexivity.
    + split; [exact A'|]. intros a0 Ha0. rewrite (A' (PMem a0)) by discriminate. rewrite (Sp a0 Ha0). rewrite <- (A (PMem a0)) by discriminate. exact (T a0 Ha0).
    + rewrite P', HL. lia.
  - inversion_clear HQ as [|? ? Q1 _]. cbn [performed before when] in Q1. destruct Pr as [Ho J]. cbn [translate] in *. change (bytes [op]) with 2 in *.
    pose proof St0 as (A & T).
    exists (ops0 ++ [op]), f0, L. split; [|split; [|split; [|split; [exact St0|exact HL]]]].
    + apply (via_app _ _ _ X0). eapply via_on; [lia|exact (fetch_lies s f0 L _ _ St0 C H0 ltac:(lia) HL Ho)|exact (waiting_alike e s f0 A w op Wt)| |constructor].
      apply (Qalike _ s); [left; exact J|exact A|exact Q1].
    + rewrite NA. cbn [map performed]. destruct op; try contradiction; reflexivity.
    + apply leads_code; [exact Si|exact Lk].
  - inversion_clear HQ as [|? ? Q1 _]. cbn [performed before when] in Q1. cbn [translate] in *. cbv zeta in *.
    set (at2 := L + 4 + bytes (translate (L + 4) c1) + 2) in *. assert (Ea : at2 = L + 4 + bytes (translate (L + 4) c1) + 2) by reflexivity.
    rewrite !bytes_app in *. change (bytes [_; _]) with 4 in *. change (bytes [_]) with 2 in *.
    apply lies_app in C. destruct C as [C0 C]. change (bytes [_; _]) with 4 in C. apply lies_app in C. destruct C as [C1 C].
    apply lies_app in C. destruct C as [Cj C2]. change (bytes [_]) with 2 in C2. destruct Pr as (Pb & Pr1 & Pr2).
    pose proof (bytes_nonneg (translate (L + 4) c1)) as B1. pose proof (bytes_nonneg (translate at2 c2)) as B2.
    destruct (test_goes s f0 w L b at2 St0 C0 H0 ltac:(lia) HL ltac:(lia) ltac:(lia) Pb Q1) as (ops1 & f1 & X1 & St1 & N1 & P1).
    exists (ops0 ++ ops1), f1. eexists. split; [exact (via_app _ _ _ X0 _ _ X1)|]. split; [rewrite NA; exact N1|]. split; [|split; [exact St1|exact P1]].
    replace (L + (4 + (bytes (translate (L + 4) c1) + (2 + bytes (translate at2 c2))))) with (at2 + bytes (translate at2 c2)) in Lk by lia.
    destruct (holds b s).
    + apply leads_code; [repeat split; try assumption; lia|]. apply (leads_jump _ _ _ Cj); try lia. exact Lk.
    + apply leads_code; [repeat split; try assumption; lia|exact Lk].
  - inversion_clear HQ as [|? ? Q1 _]. cbn [performed before when] in Q1. pose proof Si as Si0. cbn [translate] in Si, Lk, C, H1. cbv zeta in *.
    set (stop := L + 4 + bytes (translate (L + 4) c) + 2) in *. assert (Ea : stop = L + 4 + bytes (translate (L + 4) c) + 2) by reflexivity.
    pose proof Lk as Lk0. rewrite !bytes_app in H1, Lk0. change (bytes [_; _]) with 4 in *. change (bytes [_]) with 2 in *.
    apply lies_app in C. destruct C as [C0 C]. change (bytes [_; _]) with 4 in C. apply lies_app in C. destruct C as [C1 Cj]. destruct Pr as (Pb & Pr1).
    pose proof (bytes_nonneg (translate (L + 4) c)) as B1.
    destruct (test_goes s f0 w L b stop St0 C0 H0 ltac:(lia) HL ltac:(lia) ltac:(lia) Pb Q1) as (ops1 & f1 & X1 & St1 & N1 & P1).
    exists (ops0 ++ ops1), f1. eexists. split; [exact (via_app _ _ _ X0 _ _ X1)|]. split; [rewrite NA; exact N1|]. split; [|split; [exact St1|exact P1]].
    destruct (holds b s).
    + apply leads_code; [repeat split; try assumption; lia|]. apply (leads_jump _ _ _ Cj); try lia.
      apply leads_code; [exact Si0|exact Lk].
    + replace stop with (L + (4 + (bytes (translate (L + 4) c) + 2))) by lia. exact Lk0.
Qed.

Lemma follows_goes t l t' : follows e lo hi t l t' -> Forall (fun v => Q (performed v) (before v) (when v)) l ->
  forall f a, leads (todo t) a -> stands (parts t) f -> f PPC = a ->
  exists ops f' a', via ops (f, around t) (f', around t') /\ without_jumps ops = map performed l /\
    leads (todo t') a' /\ stands (parts t') f' /\ f' PPC = a'.
Proof.
  induction 1 as [t|t l1 t1 l2 t2 X Y IH]; intros HQ f a Le St Hp.
  - exists [], f, a. split; [constructor|]. split; [reflexivity|]. split; [exact Le|split; assumption].
  - apply Forall_app in HQ. destruct HQ as [HQ1 HQ2].
    destruct (proceeds_goes _ _ _ X HQ1 f a Le St Hp) as (ops1 & f1 & a1 & X1 & N1 & Le1 & St1 & Hp1).
    destruct (IH HQ2 f1 a1 Le1 St1 Hp1) as (ops2 & f2 & a2 & X2 & N2 & R).
    exists (ops1 ++ ops2), f2, a2. split; [exact (via_app _ _ _ X1 _ _ X2)|]. split; [|exact R].
    unfold without_jumps in *. rewrite filter_app, N1, N2, map_app. reflexivity.
Qed.
End Run.

(** Runs of the reference machine and of [via]. *)
Lemma via_goes e lo hi Q ops st st' : via e lo hi Q ops st st' -> ref_goes e lo hi ops st st'.
Proof. induction 1; econstructor; eassumption. Qed.
Lemma via_run e lo hi ops st st' : via e lo hi (fun op f w => ~ departs8 e f w op) ops st st' -> ref_run e ops st st'.
Proof. induction 1; econstructor; eassumption. Qed.
Lemma via_prefix e lo hi Q ops st st' : via e lo hi Q ops st st' -> forall n, (n < length ops)%nat ->
  exists st1, via e lo hi Q (firstn n ops) st st1 /\ lo <= fst st1 PPC < hi.
Proof.
  induction 1 as [st|op ops f w f1 w1 st Hr Hf E Hq X IH]; intros n Hn; [cbn [length] in Hn; lia|].
  destruct n as [|n]; [exists (f, w); split; [constructor|exact Hr]|]. cbn [length] in Hn.
  destruct (IH n ltac:(lia)) as (st1 & Y & Hr1). exists st1. split; [|exact Hr1]. cbn [firstn]. econstructor; eassumption.
Qed.

(** ** Every task can proceed, ends or is stuck *)
Lemma spares_dec8 lo hi s s' : {spares lo hi s s'} + {~ spares lo hi s s'}.
Proof. exact (spares_dec lo hi (fun _ => 0) s s'). Qed.
Lemma proceeds_or e lo hi t : todo t = [] \/ stuck e lo hi t \/ exists l t', proceeds e lo hi t l t'.
Proof.
  destruct t as [[|c k] s w]; [left; reflexivity|right]. destruct c as [|op|c1 c2|b c1 c2|b c].
  - right. eexists; eexists. constructor.
  - assert (Dw : waits op s \/ ~ waits op s).
    { destruct op; cbn [waits]; try (right; tauto). destruct (Z.eq_dec (s PKey) (-1)); [left|right]; assumption. }
    destruct Dw as [Dw|Nw]; [right; eexists; eexists; apply proceeds_wait; exact Dw|].
    destruct (reference e s w op) as [[s' w']|] eqn:E.
    + destruct (spares_dec8 lo hi s s') as [Y|N].
      * right. eexists; eexists. eapply proceeds_do; eassumption.
      * left. exists op, k. split; [reflexivity|]. split; [exact Nw|]. cbn [parts around]. intros s1 w1 E1. rewrite E in E1.
        assert (s1 = s') as -> by congruence. exact N.
    + left. exists op, k. split; [reflexivity|]. split; [exact Nw|]. cbn [parts around]. intros s1 w1 E1. congruence.
  - right. eexists; eexists. constructor.
  - right. eexists; eexists. constructor.
  - right. eexists; eexists. constructor.
Qed.
Lemma proceeds_one e lo hi t l1 t1 l2 t2 : proceeds e lo hi t l1 t1 -> proceeds e lo hi t l2 t2 -> l1 = l2 /\ t1 = t2.
Proof. intros X Y. destruct X; inversion Y; subst; try contradiction; split; congruence. Qed.
Lemma follows_app e lo hi t l1 t1 : follows e lo hi t l1 t1 -> forall l2 t2, follows e lo hi t1 l2 t2 -> follows e lo hi t (l1 ++ l2) t2.
Proof. induction 1; intros l3 t3 Y; [exact Y|]. rewrite <- app_assoc. econstructor; eauto. Qed.

(** The steps without an instruction come to an end. *)
Fixpoint weight (c : structured) : nat :=
  match c with
  | Nothing | Do _ => 1
  | Then c1 c2 | Choose _ c1 c2 => S (weight c1 + weight c2)
  | Loop _ c => S (weight c)
  end.
Fixpoint weights (k : list structured) : nat := match k with [] => 0 | c :: k => weight c + weights k end.
Lemma next_instruction e lo hi m : forall t, (weights (todo t) <= m)%nat ->
  exists l t', follows e lo hi t l t' /\ (todo t' = [] \/ stuck e lo hi t' \/ (1 <= length l)%nat).
Proof.
  induction m as [|m IH]; intros t Hw.
  - destruct t as [[|c k] s w]; [|destruct c; cbn [todo weights weight] in Hw; lia].
    exists [], (mkTask [] s w). split; [constructor|left; reflexivity].
  - destruct (proceeds_or e lo hi t) as [E|[S0|(l & t' & X)]]; [exists [], t; split; [constructor|tauto]..|].
    assert (D : (1 <= length l)%nat \/ l = [] /\ (weights (todo t') <= m)%nat).
    { destruct X; cbn [length todo weights weight] in *; try (left; lia); right; split; try reflexivity; lia. }
    destruct D as [D|[-> D]].
    + exists (l ++ []), t'. split; [econstructor; [exact X|constructor]|]. right. right. rewrite app_nil_r. exact D.
    + destruct (IH t' D) as (l2 & t2 & Y & R). exists l2, t2. split; [|exact R]. change l2 with ([] ++ l2). econstructor; eassumption.
Qed.
Lemma many_instructions e lo hi t n : exists l t', follows e lo hi t l t' /\ (todo t' = [] \/ stuck e lo hi t' \/ (n <= length l)%nat).
Proof.
  induction n as [|n (l & t1 & X & [E|[S0|N]])]; [exists [], t; split; [constructor|right; right; lia]|exists l, t1; split; [exact X|tauto]..|].
  destruct (next_instruction e lo hi _ t1 (le_n _)) as (l2 & t2 & Y & R). exists (l ++ l2), t2. split; [exact (follows_app _ _ _ _ _ _ X _ _ Y)|].
  rewrite app_length. destruct R as [E|[S0|N2]]; [tauto..|]. right. right. lia.
Qed.

(** ** Instructions that never depart *)
Lemma portable_test e b s w : ~ In Vf (registers_named (skip_if b)) -> ~ departs8 e s w (skip_if b).
Proof. intros H [K|K]; [exact (H K)|]. destruct b; exact K. Qed.
Lemma portable_never e op s w : portable_op op -> ~ departs8 e s w op.
Proof. intros [H M] [K|K]; [exact (H K)|]. destruct op; try contradiction. Qed.
Lemma portable_proceeds e lo hi t l t' : proceeds e lo hi t l t' -> Forall portable8 (todo t) ->
  Forall portable8 (todo t') /\ Forall (fun v => ~ departs8 e (before v) (when v) (performed v)) l.
Proof.
  intros X F. destruct X; cbn [todo] in *; inversion F as [|? ? P F']; subst; cbn [portable8] in P; (split; [|repeat constructor; cbn [performed before when]]).
  all: try assumption.
  all: try (apply portable_never; assumption).
  all: try (apply portable_test; tauto).
  - destruct P. repeat constructor; assumption.
  - constructor; [|assumption]. destruct (holds b s); tauto.
  - destruct (holds b s); [|assumption]. constructor; [tauto|exact F].
Qed.
Lemma portable_follows e lo hi t l t' : follows e lo hi t l t' -> Forall portable8 (todo t) ->
  Forall (fun v => ~ departs8 e (before v) (when v) (performed v)) l.
Proof.
  induction 1 as [t|t l1 t1 l2 t2 X Y IH]; intros F; [constructor|]. destruct (portable_proceeds _ _ _ _ _ _ X F) as [F1 D].
  apply Forall_app. split; [exact D|exact (IH F1)].
Qed.

(** On them the description of the code and the reference say the same. *)
Lemma portable_effect e p s w op s' w' : portable_op op -> match op with ReadRegistersFromMemory _ => False | _ => True end ->
  effect e p s w op = Some (s', w') -> exists s'', reference e s w op = Some (s'', w') /\ but_for_pc s' s''.
Proof.
  intros [Hv M] N E. destruct op; try contradiction; cbn [effect reference] in *; unfold needs, done, same_world, tick in *;
    repeat match type of E with context [if has ?x && _ then _ else _] => destruct (has x); cbn [andb] in E end;
    repeat match type of E with context [if has ?x then _ else _] => destruct (has x) end;
    repeat match type of E with context [if ?a <=? ?b then Some _ else _] => destruct (a <=? b) end; try discriminate E.
  all: injection E as E <-; subst s'.
  all: eexists; split; [reflexivity|].
  all: intros q Hq; unfold onward, goto, set, upd, advance, rv, v, upd; destruct q; cbn [part_eqb]; try reflexivity; try contradiction.
  repeat match goal with |- context [?x =? ?y] => destruct (Z.eqb_spec x y) end; reflexivity || lia.
Qed.

(** A program that ends in the description of the code ends on the reference. *)
Lemma ends_follows e p lo hi c s w s' w' : ends8 e p lo hi c s w s' w' -> proper c -> portable8 c -> loads_not c -> forall o k, but_for_pc s o ->
  exists l o', follows e lo hi (mkTask (c :: k) o w) l (mkTask k o' w') /\ but_for_pc s' o'.
Proof.
  induction 1 as [s w|op s w s' w' E Sp|c1 c2 s w s1 w1 s2 w2 E1 IH1 E2 IH2|b c1 c2 s w s' w' E IH|b c s w Hb|b c s w s1 w1 s2 w2 Hb E1 IH1 E2 IH2];
    cbn [proper portable8 loads_not]; intros Pr P N o k A.
  - exists ([] ++ []), o. split; [|exact A]. econstructor; [constructor|constructor].
  - destruct (portable_effect e p s w op s' w' P N E) as (s1 & R & A1). destruct Pr as [Ho J].
    assert (Nw : forall g, ~ waits op g) by (destruct P as [_ P]; intros g; destruct op; try contradiction; exact (fun K => K)).
    destruct (reference_alike e s o A w op s1 w' J (Nw s) R) as (o' & R' & A' & _).
    exists ([mkEvent op o w] ++ []), o'. split; [|intros q Hq; rewrite A', A1 by exact Hq; reflexivity].
    econstructor; [|constructor]. apply proceeds_do; [apply Nw|exact R'|]. intros a Ha. rewrite A', A1, Sp, A by (discriminate || exact Ha). reflexivity.
  - destruct (IH1 (proj1 Pr) (proj1 P) (proj1 N) o (c2 :: k) A) as (l1 & o1 & X1 & A1).
    destruct (IH2 (proj2 Pr) (proj2 P) (proj2 N) o1 k A1) as (l2 & o2 & X2 & A2).
    exists ([] ++ (l1 ++ l2)), o2. split; [|exact A2]. econstructor; [constructor|]. exact (follows_app _ _ _ _ _ _ X1 _ _ X2).
  - assert (K : exists l o', follows e lo hi (mkTask ((if holds b s then c1 else c2) :: k) o w) l (mkTask k o' w') /\ but_for_pc s' o').
    { apply IH; try exact A; destruct (holds b s); tauto. }
    destruct K as (l & o' & X & A'). eexists (_ ++ l), o'. split; [|exact A']. econstructor; [apply proceeds_choose|].
    rewrite (holds_but s o A). exact X.
  - eexists (_ ++ []), o. split; [|exact A]. econstructor; [apply proceeds_loop|]. rewrite (holds_but s o A), Hb. constructor.
  - destruct (IH1 (proj2 Pr) (proj2 P) N o (Loop b c :: k) A) as (l1 & o1 & X1 & A1).
    destruct (IH2 Pr P N o1 k A1) as (l2 & o2 & X2 & A2).
    eexists (_ ++ (l1 ++ l2)), o2. split; [|exact A2]. econstructor; [apply proceeds_loop|]. rewrite (holds_but s o A), Hb.
    exact (follows_app _ _ _ _ _ _ X1 _ _ X2).
Qed.
