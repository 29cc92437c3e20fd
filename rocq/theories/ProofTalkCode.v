(** Executing translated programs that talk to a device. *)
From Verif Require Import Base Arith ModelMap ModelRegs6502 ModelIsa6502 Link6502 Spec6502 SpecProgram ProofProgram SpecRoutines ProofRoutines SpecLanguage ProofLanguage
  SpecProcedures ProofProcedures SpecBus SpecTalk ProofTalk.

Section Statements.
Context {BS T : Type} (b : bus BS) (dev : device T) (port : Z -> bool) (ram : Z -> Prop) (view : BS -> (Z -> Z) -> T -> Prop).
Context (Hb : talking b dev port ram view) (p : profile) (rep : nat) (t lo hi : Z) (text : Z -> Z) (procs : list stmt) (at_ : nat -> Z).
Context (Hlo : 0 <= lo) (Hhi : hi <= 0xfffe) (Hport : forall q, lo <= q < hi + 2 -> port q = false).
Notation mem := (fun q => ram q /\ port q = false).
Notation both := (fun q => ram q \/ port q = true).
Context (Hs : forall q, scratch t q -> u16 q /\ mem q /\ ~ (lo <= q < hi)) (Ht1 : ~ page_one t).
Notation go := (walks b dev port ram view p rep lo hi).
Notation asks := (asks dev port).
Notation spends := (spends dev port).
Notation meets := (meets dev port).
Notation mem_after := (mem_after port).
Notation dev_after := (dev_after dev port rep).
Notation acts := (acts dev port rep procs).
Notation acts_in := (acts_in dev port rep procs at_).
Notation bursts := (bursts dev port rep procs).
Notation during := (during dev port rep procs).
Notation Q := (fun q => u16 q /\ ~ scratch t q).
Notation ok := (state_ok t lo hi text).
Notation settled := (ProofProcedures.settled both t lo hi text procs at_).
Ltac byte := match goal with
  | I : intact lo hi text ?f |- ?f ?q = ?b => rewrite (I q) by lia;
      match goal with B : text ?q' = b |- _ => replace q with q' by lia; exact B end end.
Notation w_one := (walks_one b dev port ram view Hb p rep lo hi Hlo Hhi Hport).
Notation join := (walks_app b dev port ram view p rep lo hi).
Ltac still := apply unheard_quiet; intros; reflexivity.
Lemma Hs' : forall q, scratch t q -> u16 q /\ both q /\ ~ (lo <= q < hi).
Proof. intros q H. destruct (Hs q H) as (U & (R & _) & N). auto. Qed.
Context (Hprocs : forall k body, nth_error procs k = Some body -> settled (at_ k) body /\ text (at_ k + size body) = 0x60 /\ at_ k + size body + 1 <= hi).
Notation s_next := (settled_next both t lo hi text procs at_ Hs' Hprocs).
Notation s_cond := (settled_cond both t lo hi text procs at_ Hs' Hprocs).
Notation s_again := (settled_again both t lo hi text procs at_ Hs' Hprocs).
Notation pushed := (kept_push mem t lo hi text Hs).
Notation deeper := (kept_deeper mem t lo hi text Hs).
Notation on_page := (stack_page mem t lo hi text Hs).
Notation ok_pushed := (ok_push mem t lo hi text Hs).
Notation in_page := (stack_port port ram t lo hi text Hs).

Lemma calm_sym s f : calm t s f -> calm t f s.
Proof. intros C q N. symmetry. apply C. exact N. Qed.
Lemma asks_state s f e u : ok s f -> reads Q e -> asks f u e = asks s u e /\ 0 <= fst (asks s u e) < 256.
Proof.
  intros (Ca & _ & By) R. destruct (asks_calm b dev port ram view Hb t f s e u (calm_sym _ _ Ca) By R) as [E1 E2]. rewrite E1. split; [reflexivity|exact E2].
Qed.
Lemma spends_state s f e u : ok s f -> reads Q e -> spends f u e = spends s u e.
Proof. intros (Ca & _ & By) R. symmetry. apply (spends_calm b dev port ram view Hb t f s e u (calm_sym _ _ Ca) By R). Qed.
Lemma meets_state s f e u x : ok s f -> reads Q e -> meets f u e x <-> meets s u e x.
Proof. intros (Ca & _ & By) R. symmetry. apply (meets_calm b dev port ram view Hb t f s e u x (calm_sym _ _ Ca) By R). Qed.

Lemma expr_in e L s f u d : ok s f -> bytes_from text L (code t e) -> lo <= L -> L + len (code t e) <= hi -> reads Q e -> depth e <= d -> d <= 256 ->
  forall A X Y S P, 0 <= S < 256 -> exists k X' P' f' l, (1 <= k)%nat /\
    go k (spends s u e) (mkRegs A X Y S L P) f u (mkRegs (fst (asks s u e)) X' Y S (L + len (code t e)) P') f' (snd (asks s u e)) l /\
    ps_zero P' = (fst (asks s u e) =? 0) /\ ok s f' /\ kept S d f f' /\ 0 <= fst (asks s u e) < 256 /\
    (forall x, In x (l ++ [snd (asks s u e)]) <-> meets s u e x).
Proof.
  intros St B H0 H1 R Hd Hd2 A X Y S P HS. destruct (asks_state s f e u St R) as [Ev Vb]. pose proof (spends_state s f e u St R) as Et.
  assert (Em : forall x, meets f u e x <-> meets s u e x) by (intros x; apply (meets_state s f e u x St R)). destruct St as (Ca & Hi & By).
  destruct (expr_walks b dev port ram view Hb p rep t lo hi text Hlo Hhi Hport Hs Ht1 e L f u Hi By B H0 H1 R ltac:(lia) A X Y S P HS) as (k & n & X' & P' & f' & l & Hk & G & Zf & Fr & By' & Hm).
  rewrite Ev in *. rewrite Et in Hk. destruct Hk as [Hk ->].
  pose proof (quiet_calm mem t lo hi text Hs _ _ _ _ Fr) as Ca'. pose proof (calm_intact mem t lo hi text Hs _ _ Ca' Hi) as Hi'.
  exists k, X', P', f', l. split; [exact Hk|]. split; [exact G|]. split; [exact Zf|]. split; [|split; [|split; [exact Vb|]]].
  - split; [exact (calm_trans _ _ _ _ Ca Ca')|split; assumption].
  - intros q Hq N. apply Fr; [apply (page_not_t t Ht1), Hq|]. intros (j & Hj & ->). apply N. exists j. split; [lia|reflexivity].
  - intros x. rewrite Hm. apply Em.
Qed.
Lemma test_in e target L s f u d : ok s f -> bytes_from text L (code t e ++ unless_zero target) -> lo <= L ->
  L + len (code t e) + 7 <= hi -> reads Q e -> depth e <= d -> d <= 256 ->
  forall A X Y S P, 0 <= S < 256 -> exists k n A' X' P' f' l, (1 <= k /\ n = spends s u e + (if (fst (asks s u e) =? 0)%Z then 5 else onward (L + len (code t e))))%nat /\
    go k n (mkRegs A X Y S L P) f u (mkRegs A' X' Y S (if fst (asks s u e) =? 0 then target else L + len (code t e) + 7) P') f' (snd (asks s u e)) l /\ ok s f' /\ kept S d f f' /\
    (forall x, In x (l ++ [snd (asks s u e)]) <-> meets s u e x).
Proof.
  intros St B H0 H1 R Hd Hd2 A X Y S P HS. apply bytes_from_app in B. fold (len (code t e)) in B.
  destruct B as [Be (B0 & B1 & B2 & B3 & B4 & B5 & B6 & _)]. pose proof (len_nonneg (code t e)) as Hl.
  destruct (expr_in e L s f u d St Be H0 ltac:(lia) R Hd Hd2 A X Y S P HS) as (k & X' & P' & f' & w & Hk & G & Zf & St' & K & Vb & Hm).
  set (l := len (code t e)) in *. pose proof St' as (_ & Hi' & _). set (v := fst (asks s u e)) in *. set (u1 := snd (asks s u e)) in *. destruct (v =? 0) eqn:E0.
  - pose proof (i_bne_through p mem v X' Y S (L + l) P' f' ltac:(lia) ltac:(byte) Zf) as I1.
    pose proof (w_one 0xd0 Bne Relative 2 _ _ _ u1 _ _ I1 ltac:(cbn [rPC]; lia) ltac:(cbn [rPC]; byte) eq_refl ltac:(still)) as W1.
    pose proof (i_jmp p mem v X' Y S (L + l + 2) P' f' target ltac:(lia) ltac:(byte) ltac:(byte) ltac:(byte)) as I2.
    pose proof (w_one 0x4c Jmp Absolute 3 _ _ _ u1 _ _ I2 ltac:(cbn [rPC]; lia) ltac:(cbn [rPC]; byte) eq_refl ltac:(still)) as W2.
    exists (k + (1 + 1))%nat, (spends s u e + (2 + 3))%nat, v, X', P', f', (w ++ [u1] ++ [u1]). split; [lia|].
    split; [exact (join _ _ _ _ _ _ _ _ _ G _ _ _ _ _ _ (join _ _ _ _ _ _ _ _ _ W1 _ _ _ _ _ _ W2))|split; [assumption|split; [assumption|]]].
    intros x. rewrite <- Hm, !in_app_iff. cbn [In]. tauto.
  - pose proof (i_bne_on p mem v X' Y S (L + l) P' f' 5 ltac:(lia) ltac:(byte) Zf ltac:(byte) ltac:(lia) ltac:(lia)) as I1.
    pose proof (w_one 0xd0 Bne Relative 2 _ _ _ u1 _ _ I1 ltac:(cbn [rPC]; lia) ltac:(cbn [rPC]; byte) eq_refl ltac:(still)) as W1.
    pose proof (i_nop p mem v X' Y S (L + l + 5) P' f' ltac:(lia) ltac:(byte)) as I2.
    pose proof (w_one 0xea Nop Implied 2 _ _ _ u1 _ _ I2 ltac:(cbn [rPC]; lia) ltac:(cbn [rPC]; byte) eq_refl ltac:(still)) as W2.
    pose proof (i_nop p mem v X' Y S (L + l + 5 + 1) P' f' ltac:(lia) ltac:(byte)) as I3.
    pose proof (w_one 0xea Nop Implied 2 _ _ _ u1 _ _ I3 ltac:(cbn [rPC]; lia) ltac:(cbn [rPC]; byte) eq_refl ltac:(still)) as W3.
    exists (k + (1 + (1 + 1)))%nat, (spends s u e + ((if ((L + l + 5) / 256 =? (L + l) / 256)%Z then 3 else 4) + (2 + 2)))%nat, v, X', P', f', (w ++ [u1] ++ [u1] ++ [u1]).
    split; [unfold onward; lia|]. replace (L + l + 7) with (L + l + 5 + 1 + 1) by lia.
    split; [exact (join _ _ _ _ _ _ _ _ _ G _ _ _ _ _ _ (join _ _ _ _ _ _ _ _ _ W1 _ _ _ _ _ _ (join _ _ _ _ _ _ _ _ _ W2 _ _ _ _ _ _ W3)))|split; [assumption|split; [assumption|]]].
    intros x. rewrite <- Hm, !in_app_iff. cbn [In]. tauto.
Qed.
Lemma jump_in a L f u : intact lo hi text f -> bytes_from text L [0x4c; low a; high a] -> lo <= L -> L + 3 <= hi ->
  forall A X Y S P, go 1 3 (mkRegs A X Y S L P) f u (mkRegs A X Y S a P) f u [u].
Proof.
  intros Hi (B0 & B1 & B2 & _) H0 H1 A X Y S P.
  pose proof (i_jmp p mem A X Y S L P f a ltac:(lia) ltac:(byte) ltac:(byte) ltac:(byte)) as I1.
  exact (w_one 0x4c Jmp Absolute 3 _ _ _ u _ _ I1 ltac:(cbn [rPC]; lia) ltac:(cbn [rPC]; byte) eq_refl ltac:(still)).
Qed.
Lemma call_in k body L s f u d : nth_error procs k = Some body -> ok s f -> settled L (Perform k) -> 2 <= d <= 256 ->
  forall A X Y S P, 0 <= S < 256 -> exists f', go 1 6 (mkRegs A X Y S L P) f u (mkRegs A X Y ((S - 2) mod 256) (at_ k) P) f' u [u] /\ ok s f' /\ kept S d f f' /\
    f' (stack S) = high (L + 2) /\ f' (stack (S - 1)) = low (L + 2).
Proof.
  intros Ek St (B & H0 & H1 & _) Hd A X Y S P HS. change (size (Perform k)) with 3 in H1. destruct B as (B0 & B1 & B2 & _). pose proof St as (_ & Hi & _).
  pose proof (i_jsr p mem A X Y S L P f (at_ k) ltac:(lia) ltac:(byte) ltac:(byte) ltac:(byte) (page_ram mem t lo hi Hs _ (on_page _)) (page_ram mem t lo hi Hs _ (on_page _))) as I1.
  pose proof (w_one 0x20 Jsr Absolute 6 _ _ _ u _ _ I1 ltac:(cbn [rPC]; lia) ltac:(cbn [rPC]; byte) eq_refl ltac:(still)) as W1.
  assert (V1 : 0 <= high (L + 2) < 256) by (unfold high; lia). assert (V2 : 0 <= low (L + 2) < 256) by (unfold low; lia).
  eexists. split; [exact W1|]. split; [|split; [|split]].
  - apply ok_pushed; [apply on_page| |exact V2]. apply ok_pushed; [apply on_page|exact St|exact V1].
  - eapply kept_trans; [apply pushed; lia|]. apply (deeper S d 1); [lia|].
    replace (stack (S - 1)) with (stack ((S - 1) mod 256)) by (unfold stack; lia). apply pushed. lia.
  - rewrite store1_other by (unfold stack; lia). apply store1_same.
  - apply store1_same.
Qed.
Lemma return_in k body L s f u : nth_error procs k = Some body -> ok s f -> settled L (Perform k) ->
  forall A X Y S P, 0 <= S < 256 -> f (stack S) = high (L + 2) -> f (stack (S - 1)) = low (L + 2) ->
  go 1 6 (mkRegs A X Y ((S - 2) mod 256) (at_ k + size body) P) f u (mkRegs A X Y S (L + 3) P) f u [u].
Proof.
  intros Ek St (_ & H0 & H1 & _) A X Y S P HS E1 E2. change (size (Perform k)) with 3 in H1. destruct (Hprocs k body Ek) as ((_ & K0 & _) & B0 & K1).
  pose proof St as (_ & Hi & _). pose proof (size_nonneg body).
  pose proof (i_rts p mem A X Y ((S - 2) mod 256) (at_ k + size body) P f (L + 2) ltac:(lia) ltac:(byte)) as I1.
  replace (stack ((S - 2) mod 256 + 1)) with (stack (S - 1)) in I1 by (unfold stack; lia).
  replace (stack ((S - 2) mod 256 + 2)) with (stack S) in I1 by (unfold stack; lia).
  replace (((S - 2) mod 256 + 2) mod 256) with S in I1 by lia.
  specialize (I1 E2 E1 ltac:(lia)). replace (L + 2 + 1) with (L + 3) in I1 by lia.
  apply (w_one 0x60 Rts Implied 6 _ _ _ u _ _ I1); [cbn [rPC]; lia|cbn [rPC]; byte|reflexivity|apply (unheard_rts b dev port ram view Hb); apply in_page].
Qed.

(** A store, to memory or to a port. *)
Lemma ok_placed s f a v : (u16 a /\ both a /\ ~ (lo <= a < hi)) /\ ~ scratch t a -> ok s f -> 0 <= v < 256 -> ok (mem_after s a v) (placed port f a v).
Proof.
  intros Wa St Hv. unfold SpecTalk.mem_after, placed. destruct (port a); [exact St|]. apply (ok_store both t lo hi text); assumption.
Qed.
Lemma kept_placed S d f a v : ~ scratch t a -> kept S d f (placed port f a v).
Proof. intros N. unfold placed. destruct (port a); [apply kept_refl|apply (kept_store t); exact N]. Qed.

Definition walked (d L : Z) (c : stmt) (s : Z -> Z) (u : T) (s' : Z -> Z) (u' : T) (n : nat) : Prop := forall f A X Y S P, ok s f -> 0 <= S < 256 ->
  exists k A' X' P' f' l, go k n (mkRegs A X Y S L P) f u (mkRegs A' X' Y S (L + size c) P') f' u' l /\ ok s' f' /\ kept S d f f' /\ Forall (during d c s u) (l ++ [u']).
Lemma last_too {A} (D : A -> Prop) l x : Forall D l -> D x -> Forall D (l ++ [x]).
Proof. intros H1 H2. apply Forall_app. split; [exact H1|constructor; [exact H2|constructor]]. Qed.
Lemma not_last {A} (D : A -> Prop) l x : Forall D (l ++ [x]) -> Forall D l.
Proof. intros H. apply Forall_app in H. apply H. Qed.
Lemma seen_meets (D : T -> Prop) e s u l : (forall x, In x (l ++ [snd (asks s u e)]) <-> meets s u e x) -> (forall x, meets s u e x -> D x) -> Forall D l /\ D (snd (asks s u e)).
Proof.
  intros Hm H. split; [apply Forall_forall; intros x Hx; apply H, Hm, in_or_app; left; exact Hx|apply H, Hm, in_or_app; right; left; reflexivity].
Qed.
Notation cost := (walks_cost b dev port ram view p rep lo hi).
Notation Wp := (fun q => (u16 q /\ both q /\ ~ (lo <= q < hi)) /\ ~ scratch t q).

Lemma stmt_walks d L c s u s' u' n : acts_in d L c s u s' u' n -> d <= 256 -> settled L c -> walked d L c s u s' u' n.
Proof.
  induction 1 as [d L s u|d L v e s u x u1 De Ex|d L a i e s u x u1 y u2 De Di Ex Ey|d L c1 c2 s u s1 u1 s2 u2 m1 m2 E1 IH1 E2 IH2|d L e c1 c2 s u x u1 s' u' m De Ex En E IH
    |d L e c1 c2 s u u1 s' u' m De Ex E IH|d L e c s u u1 De Ex|d L e c s u x u1 s2 u2 s3 u3 m1 m2 De Ex En E1 IH1 E2 IH2|d L k body s u s' u' m Ek Hd E IH];
    intros Hd2 Pl f A X Y S P St HS.
  - exists 0%nat, A, X, P, f, []. change (size Pass) with 0. replace (L + 0) with L by lia. split; [constructor|]. split; [exact St|]. split; [apply kept_refl|].
    repeat constructor.
  - destruct Pl as (B & H0 & H1 & Wv & R). cbn [emit] in B. unfold size in *. cbn [emit] in *. rewrite len_app in *. change (len [_; _; _]) with 3 in *.
    replace (len (code 0 e)) with (len (code t e)) in * by (unfold len; f_equal; apply code_length).
    apply bytes_from_app in B. fold (len (code t e)) in B. destruct B as [Be (B0 & B1 & B2 & _)]. pose proof (len_nonneg (code t e)) as Hl.
    destruct (expr_in e L s f u d St Be H0 ltac:(lia) R De Hd2 A X Y S P HS) as (k & X' & P' & f' & w & Hk & G & Zf & St' & K & Vb & Hm).
    assert (Hd' := seen_meets (during d (Put v e) s u) e s u w Hm ltac:(intros; apply during_put; assumption)).
    rewrite Ex in *. cbn [fst snd] in *.
    set (l := len (code t e)) in *. pose proof St' as (_ & Hi' & _). pose proof Wv as ((_ & Rv & _) & Nv).
    pose proof (w_sta b dev port ram view Hb p rep lo hi Hlo Hhi Hport x X' Y S (L + l) P' f' u1 v ltac:(lia) ltac:(lia) ltac:(byte) ltac:(byte) ltac:(byte) Rv) as W1.
    exists (k + 1)%nat, x, X', P', (placed port f' v x), (w ++ [u1]). replace (L + (l + 3)) with (L + l + 3) by lia.
    split; [exact (join _ _ _ _ _ _ _ _ _ G _ _ _ _ _ _ W1)|].
    split; [apply ok_placed; assumption|]. split; [eapply kept_trans; [exact K|apply kept_placed; exact Nv]|].
    apply last_too; [apply last_too; apply Hd'|]. eapply during_end, acts_put; eassumption.
  - destruct Pl as (B & H0 & H1 & Wa & Ri & R). cbn [emit] in B. unfold size in *. cbn [emit] in *. rewrite !len_app in *.
    change (len [_; _; _; _; _]) with 5 in *. change (len [_]) with 1 in *.
    replace (len (code 0 e)) with (len (code t e)) in * by (unfold len; f_equal; apply code_length).
    replace (len (code 0 i)) with (len (code t i)) in * by (unfold len; f_equal; apply code_length).
    apply bytes_from_app in B. destruct B as [Be B]. apply bytes_from_app in B. destruct B as [(B0 & _) B].
    apply bytes_from_app in B. destruct B as [Bi (B1 & B2 & B3 & B4 & B5 & _)]. cbn [length] in *.
    fold (len (code t e)) in *. fold (len (code t i)) in *. pose proof (len_nonneg (code t e)) as Hl. pose proof (len_nonneg (code t i)) as Hl2.
    destruct (expr_in e L s f u d St Be H0 ltac:(lia) R De Hd2 A X Y S P HS) as (k & X1 & P1 & f1 & w1 & Hk & G & _ & St1 & K1 & Vb & Hm).
    assert (Hd' := seen_meets (during d (PutItem a i e) s u) e s u w1 Hm ltac:(intros; apply during_item1; assumption)).
    set (l := len (code t e)) in *. set (l2 := len (code t i)) in *. replace (L + l + Z.of_nat 1) with (L + l + 1) in * by lia.
    pose proof St1 as (_ & Hi1 & _).
    assert (Hd3 : forall z, meets s u1 i z -> during d (PutItem a i e) s u z) by (intros z Hz; apply during_item2; [assumption|assumption|rewrite Ex; exact Hz]).
    rewrite Ex in *. cbn [fst snd] in *.
    pose proof (i_pha p mem x X1 Y S (L + l) P1 f1 ltac:(lia) ltac:(byte) (page_ram mem t lo hi Hs _ (on_page _))) as I1.
    pose proof (w_one 0x48 Pha Implied 3 _ _ _ u1 _ _ I1 ltac:(cbn [rPC]; lia) ltac:(cbn [rPC]; byte) eq_refl ltac:(still)) as W1.
    pose proof (depth_nonneg i) as Dn.
    pose proof (ok_pushed s f1 (stack S) x (on_page S) St1 Vb) as St2. pose proof (pushed S d f1 x ltac:(lia)) as K2.
    set (f2 := store1 f1 (stack S, x)) in *.
    destruct (expr_in i (L + l + 1) s f2 u1 (d - 1) St2 Bi ltac:(lia) ltac:(fold l2; lia) Ri ltac:(lia) ltac:(lia) x X1 Y ((S - 1) mod 256) P1 ltac:(lia))
      as (k2 & X2 & P2 & f3 & w2 & Hk2 & G2 & _ & St3 & K3 & Vbi & Hm2). fold l2 in G2.
    assert (Hd4 := seen_meets _ i s u1 w2 Hm2 Hd3).
    pose proof St3 as (_ & Hi3 & _). rewrite Ey in *. cbn [fst snd] in *.
    pose proof (i_tax p mem y X2 Y ((S - 1) mod 256) (L + l + 1 + l2) P2 f3 ltac:(lia) ltac:(byte)) as I2.
    pose proof (w_one 0xaa Tax Implied 2 _ _ _ u2 _ _ I2 ltac:(cbn [rPC]; lia) ltac:(cbn [rPC]; byte) eq_refl ltac:(still)) as W2.
    pose proof (i_pla p mem y y Y ((S - 1) mod 256) (L + l + 1 + l2 + 1) (nzf P2 y) f3 ltac:(lia) ltac:(byte)) as I3. cbv zeta in I3.
    pose proof (w_one 0x68 Pla Implied 4 _ _ _ u2 _ _ I3 ltac:(cbn [rPC]; lia) ltac:(cbn [rPC]; byte) eq_refl (unheard_pla b dev port ram view Hb p _ _ _ _ _ _ (in_page _))) as W3.
    replace (((S - 1) mod 256 + 1) mod 256) with S in W3 by lia.
    replace (stack ((S - 1) mod 256 + 1)) with (stack S) in W3 by (unfold stack; lia).
    assert (Es : f3 (stack S) = x).
    { rewrite K3; [apply store1_same|apply on_page|]. intros (j & Hj & E). unfold stack in E. lia. }
    rewrite Es in W3.
    pose proof (Wa y Vbi) as Wx. pose proof Wx as ((Ux & Rx & _) & Nx).
    pose proof (w_sta_x b dev port ram view Hb p rep lo hi Hlo Hhi Hport x y Y S (L + l + 1 + l2 + 1 + 1) (nzf (nzf P2 y) x) f3 u2 a ltac:(lia) ltac:(lia) ltac:(byte) ltac:(byte) ltac:(byte)
      Ux Rx) as W4.
    eexists (k + (1 + (k2 + (1 + (1 + 1)))))%nat, _, y, _, _, (w1 ++ [u1] ++ w2 ++ [u2] ++ [u2] ++ [u2]). split.
    { replace (L + (l + (1 + (l2 + 5)))) with (L + l + 1 + l2 + 1 + 1 + 3) by lia.
      eapply cost; [exact (join _ _ _ _ _ _ _ _ _ G _ _ _ _ _ _ (join _ _ _ _ _ _ _ _ _ W1 _ _ _ _ _ _ (join _ _ _ _ _ _ _ _ _ G2 _ _ _ _ _ _
        (join _ _ _ _ _ _ _ _ _ W2 _ _ _ _ _ _ (join _ _ _ _ _ _ _ _ _ W3 _ _ _ _ _ _ W4)))))|lia]. }
    split; [apply ok_placed; assumption|]. split.
    + eapply kept_trans; [exact K1|]. eapply kept_trans; [exact K2|]. eapply kept_trans; [apply (deeper S d 1); [lia|exact K3]|apply kept_placed; exact Nx].
    + destruct Hd' as [F1 D1], Hd4 as [F2 D2]. assert (D3 : during d (PutItem a i e) s u (dev_after u2 (a + y) x)) by (eapply during_end, acts_item; eassumption).
      rewrite !Forall_app. repeat split; first [assumption|constructor; [assumption|constructor]].
  - destruct (s_next _ _ _ Pl) as (P1 & P2). rewrite size_next.
    destruct (IH1 Hd2 P1 f A X Y S P St HS) as (k1 & A1 & X1 & F1 & f1 & w1 & G1 & St1 & K1 & D1).
    destruct (IH2 Hd2 P2 f1 A1 X1 Y S F1 St1 HS) as (k2 & A2 & X2 & F2 & f2 & w2 & G2 & St2 & K2 & D2).
    exists (k1 + k2)%nat, A2, X2, F2, f2, (w1 ++ w2). replace (L + (size c1 + size c2)) with (L + size c1 + size c2) by lia.
    split; [exact (join _ _ _ _ _ _ _ _ _ G1 _ _ _ _ _ _ G2)|]. split; [exact St2|]. split; [exact (kept_trans _ _ _ _ _ K1 K2)|].
    rewrite <- app_assoc. apply Forall_app. split.
    + eapply Forall_impl; [|exact (not_last _ _ _ D1)]. intros z Hz. apply during_next1. exact Hz.
    + eapply Forall_impl; [|exact D2]. intros z Hz. eapply during_next2; [exact (acts_in_acts _ _ _ _ _ _ _ _ _ _ _ _ _ E1)|exact Hz].
  - destruct (s_cond _ _ _ _ Pl) as (Bt & H0 & Ge & P1 & P2 & EL & Bj). rewrite <- EL. rewrite <- (code_width t) in *.
    set (at1 := L + len (code t e) + 7) in *. set (at2 := at1 + size c1 + 3) in *. assert (Ea : at2 = at1 + size c1 + 3) by reflexivity. assert (Eb : at1 = L + len (code t e) + 7) by reflexivity.
    pose proof P2 as (_ & _ & H2 & _). pose proof P1 as (_ & H3 & _). pose proof (size_nonneg c1) as Hl1. pose proof (size_nonneg c2) as Hl2.
    destruct (test_in e at2 L s f u d St Bt H0 ltac:(lia) Ge De Hd2 A X Y S P HS) as (k & n & A1 & X1 & F1 & f1 & w1 & [_ En1] & G1 & St1 & K1 & Hm).
    assert (Hd' := seen_meets (during d (Cond e c1 c2) s u) e s u w1 Hm ltac:(intros; apply during_test; assumption)).
    fold at1 in G1. rewrite Ex in G1, En1, Hd'. cbn [fst snd] in G1, En1, Hd'. assert (E0 : (x =? 0) = false) by lia. rewrite E0 in *.
    destruct (IH Hd2 P1 f1 A1 X1 Y S F1 St1 HS) as (k2 & A2 & X2 & F2 & f2 & w2 & G2 & St2 & K2 & D2).
    pose proof (jump_in _ _ f2 u' ltac:(apply St2) Bj ltac:(lia) ltac:(lia) A2 X2 Y S F2) as G3.
    exists (k + (k2 + 1))%nat, A2, X2, F2, f2, (w1 ++ w2 ++ [u']).
    split; [eapply cost; [exact (join _ _ _ _ _ _ _ _ _ G1 _ _ _ _ _ _ (join _ _ _ _ _ _ _ _ _ G2 _ _ _ _ _ _ G3))|lia]|].
    split; [exact St2|]. split; [exact (kept_trans _ _ _ _ _ K1 K2)|].
    assert (D3 : Forall (during d (Cond e c1 c2) s u) (w2 ++ [u'])).
    { eapply Forall_impl; [|exact D2]. intros z Hz. eapply during_cond; [exact De|exact Ex|]. rewrite E0. exact Hz. }
    rewrite <- app_assoc. apply Forall_app. split; [apply Hd'|]. apply last_too; [exact D3|]. apply Forall_app in D3. destruct D3 as [_ D3]. inversion D3; assumption.
  - destruct (s_cond _ _ _ _ Pl) as (Bt & H0 & Ge & P1 & P2 & EL & Bj). rewrite <- EL. rewrite <- (code_width t) in *.
    set (at1 := L + len (code t e) + 7) in *. set (at2 := at1 + size c1 + 3) in *. assert (Ea : at2 = at1 + size c1 + 3) by reflexivity. assert (Eb : at1 = L + len (code t e) + 7) by reflexivity.
    pose proof P2 as (_ & _ & H2 & _). pose proof P1 as (_ & H3 & _). pose proof (size_nonneg c1) as Hl1. pose proof (size_nonneg c2) as Hl2.
    destruct (test_in e at2 L s f u d St Bt H0 ltac:(lia) Ge De Hd2 A X Y S P HS) as (k & n & A1 & X1 & F1 & f1 & w1 & [_ En1] & G1 & St1 & K1 & Hm).
    assert (Hd' := seen_meets (during d (Cond e c1 c2) s u) e s u w1 Hm ltac:(intros; apply during_test; assumption)).
    rewrite Ex in G1, En1, Hd'. cbn [fst snd Z.eqb] in G1, En1, Hd'.
    destruct (IH Hd2 P2 f1 A1 X1 Y S F1 St1 HS) as (k2 & A2 & X2 & F2 & f2 & w2 & G2 & St2 & K2 & D2).
    exists (k + k2)%nat, A2, X2, F2, f2, (w1 ++ w2).
    split; [eapply cost; [exact (join _ _ _ _ _ _ _ _ _ G1 _ _ _ _ _ _ G2)|lia]|]. split; [exact St2|]. split; [exact (kept_trans _ _ _ _ _ K1 K2)|].
    rewrite <- app_assoc. apply Forall_app. split; [apply Hd'|]. eapply Forall_impl; [|exact D2]. intros z Hz. eapply during_cond; [exact De|exact Ex|exact Hz].
  - destruct (s_again _ _ _ Pl) as (Bt & H0 & Ge & P1 & EL & H2 & Bj). rewrite <- EL.
    set (at1 := L + len (code t e) + 7) in *. set (stop := at1 + size c + 3) in *. assert (Ea : stop = at1 + size c + 3) by reflexivity. assert (Eb : at1 = L + len (code t e) + 7) by reflexivity.
    pose proof (size_nonneg c) as Hl1.
    destruct (test_in e stop L s f u d St Bt H0 ltac:(lia) Ge De Hd2 A X Y S P HS) as (k & n & A1 & X1 & F1 & f1 & w1 & [_ En1] & G1 & St1 & K1 & Hm).
    assert (Hd' := seen_meets (during d (Again e c) s u) e s u w1 Hm ltac:(intros; apply during_loop; assumption)).
    rewrite Ex in G1, En1, Hd'. cbn [fst snd Z.eqb] in G1, En1, Hd'. exists k, A1, X1, F1, f1, w1.
    split; [eapply cost; [exact G1|exact En1]|]. split; [assumption|]. split; [assumption|]. apply last_too; apply Hd'.
  - destruct (s_again _ _ _ Pl) as (Bt & H0 & Ge & P1 & EL & H2 & Bj). rewrite <- (code_width t) in *.
    set (at1 := L + len (code t e) + 7) in *. set (stop := at1 + size c + 3) in *. assert (Ea : stop = at1 + size c + 3) by reflexivity. assert (Eb : at1 = L + len (code t e) + 7) by reflexivity.
    pose proof (size_nonneg c) as Hl1. pose proof P1 as (_ & H3 & _).
    destruct (test_in e stop L s f u d St Bt H0 ltac:(lia) Ge De Hd2 A X Y S P HS) as (k & n & A1 & X1 & F1 & f1 & w1 & [_ En1] & G1 & St1 & K1 & Hm).
    assert (Hd' := seen_meets (during d (Again e c) s u) e s u w1 Hm ltac:(intros; apply during_loop; assumption)).
    rewrite Ex in G1, En1, Hd'. cbn [fst snd] in G1, En1, Hd'. assert (E0 : (x =? 0) = false) by lia. rewrite E0 in *. fold at1 in G1.
    destruct (IH1 Hd2 P1 f1 A1 X1 Y S F1 St1 HS) as (k2 & A2 & X2 & F2 & f2 & w2 & G2 & St2 & K2 & D2).
    pose proof (jump_in _ _ f2 u2 ltac:(apply St2) Bj ltac:(lia) ltac:(lia) A2 X2 Y S F2) as G3.
    destruct (IH2 Hd2 Pl f2 A2 X2 Y S F2 St2 HS) as (k4 & A4 & X4 & F4 & f4 & w4 & G4 & St4 & K4 & D4).
    exists (k + (k2 + (1 + k4)))%nat, A4, X4, F4, f4, (w1 ++ w2 ++ [u2] ++ w4). split; [|split; [exact St4|split; [exact (kept_trans _ _ _ _ _ K1 (kept_trans _ _ _ _ _ K2 K4))|]]].
    + eapply cost; [exact (join _ _ _ _ _ _ _ _ _ G1 _ _ _ _ _ _ (join _ _ _ _ _ _ _ _ _ G2 _ _ _ _ _ _ (join _ _ _ _ _ _ _ _ _ G3 _ _ _ _ _ _ G4)))|lia].
    + rewrite <- !app_assoc. apply Forall_app. split; [apply Hd'|]. rewrite app_assoc. apply Forall_app. split.
      * eapply Forall_impl; [|exact D2]. intros z Hz. eapply during_now; [exact De|exact Ex|exact En|exact Hz].
      * eapply Forall_impl; [|exact D4]. intros z Hz. eapply during_later; [exact De|exact Ex|exact En|exact (acts_in_acts _ _ _ _ _ _ _ _ _ _ _ _ _ E1)|exact Hz].
  - destruct (call_in k body L s f u d Ek St Pl ltac:(lia) A X Y S P HS) as (f1 & G1 & St1 & K1 & R1 & R2).
    destruct (IH ltac:(lia) (proj1 (Hprocs k body Ek)) f1 A X Y ((S - 2) mod 256) P St1 ltac:(lia)) as (k2 & A2 & X2 & F2 & f2 & w2 & G2 & St2 & K2 & D2).
    assert (Q1 : f2 (stack S) = high (L + 2)).
    { rewrite K2; [exact R1|apply on_page|]. intros (j & Hj & E'). unfold stack in E'. lia. }
    assert (Q2 : f2 (stack (S - 1)) = low (L + 2)).
    { rewrite K2; [exact R2|apply on_page|]. intros (j & Hj & E'). unfold stack in E'. lia. }
    pose proof (return_in k body L s' f2 u' Ek St2 Pl A2 X2 Y S F2 HS Q1 Q2) as G3.
    change (size (Perform k)) with 3. exists (1 + (k2 + 1))%nat, A2, X2, F2, f2, ([u] ++ w2 ++ [u']). split; [|split; [exact St2|split]].
    + eapply cost; [exact (join _ _ _ _ _ _ _ _ _ G1 _ _ _ _ _ _ (join _ _ _ _ _ _ _ _ _ G2 _ _ _ _ _ _ G3))|lia].
    + eapply kept_trans; [exact K1|]. apply (deeper S d 2); [lia|exact K2].
    + assert (D3 : Forall (during d (Perform k) s u) (w2 ++ [u'])).
      { eapply Forall_impl; [|exact D2]. intros z Hz. eapply during_body; [exact Ek|exact Hd|exact Hz]. }
      cbn [app]. constructor; [apply during_start|]. apply last_too; [exact D3|]. apply Forall_app in D3. destruct D3 as [_ D3]. inversion D3; assumption.
Qed.
Lemma stmt_ends d c s u s' u' : acts d c s u s' u' -> d <= 256 -> forall L, settled L c -> exists n, walked d L c s u s' u' n.
Proof.
  intros E Hd L Pl. destruct (acts_acts_in dev port rep procs at_ d c s u s' u' E L) as (n & E'). exists n. exact (stmt_walks d L c s u s' u' n E' Hd Pl).
Qed.

(** ** Programs that have not ended *)
Definition until (k : nat) (D : T -> Prop) (L : Z) (s : Z -> Z) (u : T) : Prop := forall f A X Y S P, ok s f -> 0 <= S < 256 ->
  exists n r' f' u' l, go k n (mkRegs A X Y S L P) f u r' f' u' l /\ Forall D (l ++ [u']).
Lemma Forall_firstn {A} (D : A -> Prop) m l : Forall D l -> Forall D (firstn m l).
Proof. intros H. rewrite Forall_forall in *. intros x Hx. apply H. rewrite <- (firstn_skipn m l). apply in_or_app. left. exact Hx. Qed.
Lemma first_ones (D : T -> Prop) m k n r f u r' f' u' l : go k n r f u r' f' u' l -> Forall D (l ++ [u']) -> (m <= k)%nat ->
  exists n1 r1 f1 u1 l1, go m n1 r f u r1 f1 u1 l1 /\ Forall D (l1 ++ [u1]).
Proof.
  intros G H Hm. destruct (walks_take b dev port ram view p rep lo hi Hport m _ _ _ _ _ _ _ _ _ G Hm) as (n1 & r1 & f1 & u1 & G1 & N).
  exists n1, r1, f1, u1, (firstn m l). split; [exact G1|]. apply last_too; [apply Forall_firstn, (not_last _ _ _ H)|].
  rewrite Forall_forall in H. apply H. exact (nth_error_In _ _ N).
Qed.
Lemma Forall_last {A} (D : A -> Prop) l x : Forall D (l ++ [x]) -> D x.
Proof. intros H. apply Forall_app in H. destruct H as [_ H]. inversion H; assumption. Qed.
Lemma until_impl k (D D' : T -> Prop) L s u : (forall x, D x -> D' x) -> until k D L s u -> until k D' L s u.
Proof.
  intros H U f A X Y S P St HS. destruct (U f A X Y S P St HS) as (n & r' & f' & u' & l & G & F). exists n, r', f', u', l. split; [exact G|].
  eapply Forall_impl; [exact H|exact F].
Qed.

Lemma still_or_acts k : forall c d L s u, d <= 256 -> settled L c -> (exists s' u', acts d c s u s' u') \/ bursts d c s u \/ until k (during d c s u) L s u.
Proof.
  induction k as [|k IHk].
  { intros c d L s u _ _. right. right. intros f A X Y S P _ _. exists 0%nat, (mkRegs A X Y S L P), f, u, []. split; [constructor|]. repeat constructor. }
  induction c as [|v e|a i e|c1 IH1 c2 IH2|e c1 IH1 c2 IH2|e c IH|j]; intros d L s u Hd2 Pl.
  - left. do 2 eexists. constructor.
  - destruct (Z_le_dec (depth e) d); [|right; left; constructor; lia]. destruct (asks s u e) as [x u1] eqn:Ex. left. do 2 eexists. econstructor; eassumption.
  - destruct (Z_le_dec (depth e) d); [|right; left; constructor; lia]. destruct (Z_le_dec (1 + depth i) d); [|right; left; constructor; lia].
    destruct (asks s u e) as [x u1] eqn:Ex. destruct (asks s u1 i) as [y u2] eqn:Ey. left. do 2 eexists. econstructor; eassumption.
  - destruct (s_next _ _ _ Pl) as (P1 & P2).
    destruct (IH1 d L s u Hd2 P1) as [(s1 & u1 & E1)|[O|N]]; [|right; left; apply bursts_next1; exact O|right; right; eapply until_impl; [|exact N]; intros; apply during_next1; assumption].
    destruct (IH2 d _ s1 u1 Hd2 P2) as [(s2 & u2 & E2)|[O|N]]; [left; exists s2, u2; econstructor; eassumption|right; left; eapply bursts_next2; eassumption|].
    right. right. intros f A X Y S P St HS. destruct (stmt_ends d _ _ _ _ _ E1 Hd2 L P1) as (n1 & Pf). destruct (Pf f A X Y S P St HS) as (k1 & A1 & X1 & F1 & f1 & w1 & G1 & St1 & _ & D1).
    destruct (N f1 A1 X1 Y S F1 St1 HS) as (n2 & r2 & f2 & u2 & w2 & G2 & D2). pose proof (join _ _ _ _ _ _ _ _ _ G1 _ _ _ _ _ _ G2) as G5.
    refine (first_ones _ (Datatypes.S k) _ _ _ _ _ _ _ _ _ G5 _ ltac:(lia)). rewrite <- app_assoc. apply Forall_app. split.
    + eapply Forall_impl; [|exact (not_last _ _ _ D1)]. intros z Hz. apply during_next1. exact Hz.
    + eapply Forall_impl; [|exact D2]. intros z Hz. eapply during_next2; eassumption.
  - destruct (Z_le_dec (depth e) d) as [De|De]; [|right; left; apply bursts_test; lia].
    destruct (s_cond _ _ _ _ Pl) as (Bt & H0 & Ge & P1 & P2 & EL & Bj).
    set (at1 := L + len (code t e) + 7) in *. set (at2 := at1 + size c1 + 3) in *. assert (Ea : at2 = at1 + size c1 + 3) by reflexivity. assert (Eb : at1 = L + len (code t e) + 7) by reflexivity.
    pose proof P2 as (_ & _ & H2 & _). pose proof P1 as (_ & H3 & _). pose proof (size_nonneg c1) as Hl1. pose proof (size_nonneg c2) as Hl2.
    destruct (asks s u e) as [x u1] eqn:Ex.
    assert (K : (exists s' u', acts d (if x =? 0 then c2 else c1) s u1 s' u') \/ bursts d (if x =? 0 then c2 else c1) s u1 \/
      until (Datatypes.S k) (during d (if x =? 0 then c2 else c1) s u1) (if x =? 0 then at2 else at1) s u1).
    { destruct (x =? 0); [apply IH2|apply IH1]; assumption. }
    destruct K as [(s' & u' & E)|[O|N]]; [left; exists s', u'; econstructor; eassumption|right; left; eapply bursts_cond; eassumption|]. right. right. intros f A X Y S P St HS.
    destruct (test_in e at2 L s f u d St Bt H0 ltac:(lia) Ge De Hd2 A X Y S P HS) as (k1 & n1 & A1 & X1 & F1 & f1 & w1 & _ & G1 & St1 & _ & Hm).
    assert (Hd' := seen_meets (during d (Cond e c1 c2) s u) e s u w1 Hm ltac:(intros; apply during_test; assumption)).
    rewrite Ex in G1, Hd'. cbn [fst snd] in G1, Hd'.
    destruct (N f1 A1 X1 Y S F1 St1 HS) as (n2 & r2 & f2 & u2 & w2 & G2 & D2). pose proof (join _ _ _ _ _ _ _ _ _ G1 _ _ _ _ _ _ G2) as G5.
    refine (first_ones _ (Datatypes.S k) _ _ _ _ _ _ _ _ _ G5 _ ltac:(lia)). rewrite <- app_assoc. apply Forall_app. split; [apply Hd'|].
    eapply Forall_impl; [|exact D2]. intros z Hz. eapply during_cond; eassumption.
  - destruct (Z_le_dec (depth e) d) as [De|De]; [|right; left; apply bursts_loop; lia].
    destruct (s_again _ _ _ Pl) as (Bt & H0 & Ge & P1 & EL & H2 & Bj).
    set (at1 := L + len (code t e) + 7) in *. set (stop := at1 + size c + 3) in *. assert (Ea : stop = at1 + size c + 3) by reflexivity. assert (Eb : at1 = L + len (code t e) + 7) by reflexivity.
    pose proof (size_nonneg c) as Hl1. pose proof P1 as (_ & H3 & _).
    destruct (asks s u e) as [x u1] eqn:Ex.
    destruct (Z.eq_dec x 0) as [->|En]; [left; exists s, u1; apply acts_stop; assumption|].
    assert (H : forall f, ok s f -> forall A X Y S P, 0 <= S < 256 -> exists k n A' X' P' f' l, (1 <= k)%nat /\
      go k n (mkRegs A X Y S L P) f u (mkRegs A' X' Y S at1 P') f' u1 l /\ ok s f' /\ Forall (during d (Again e c) s u) l).
    { intros f St A X Y S P HS. destruct (test_in e stop L s f u d St Bt H0 ltac:(lia) Ge De Hd2 A X Y S P HS) as (k1 & n1 & A1 & X1 & F1 & f1 & w1 & Hk & G1 & St1 & _ & Hm).
      assert (Hd' := seen_meets (during d (Again e c) s u) e s u w1 Hm ltac:(intros; apply during_loop; assumption)).
      rewrite Ex in G1, Hd'. cbn [fst snd] in G1, Hd'.
      replace (x =? 0) with false in G1 by lia. exists k1, n1, A1, X1, F1, f1, w1. split; [apply Hk|split; [exact G1|split; [exact St1|apply Hd']]]. }
    destruct (IH d at1 s u1 Hd2 P1) as [(s1 & u2 & E1)|[O|N]]; [|right; left; eapply bursts_now; eassumption|].
    + destruct (IHk (Again e c) d L s1 u2 Hd2 Pl) as [(s2 & u3 & E2)|[O|N]]; [left; exists s2, u3; eapply acts_again; eassumption|right; left; eapply bursts_later; eassumption|].
      right. right. intros f A X Y S P St HS.
      destruct (H f St A X Y S P HS) as (k1 & n1 & A1 & X1 & F1 & f1 & w1 & Hk & G1 & St1 & D1).
      destruct (stmt_ends d _ _ _ _ _ E1 Hd2 at1 P1) as (n2 & Pf). destruct (Pf f1 A1 X1 Y S F1 St1 HS) as (k2 & A2 & X2 & F2 & f2 & w2 & G2 & St2 & _ & D2).
      pose proof (jump_in _ _ f2 u2 ltac:(apply St2) Bj ltac:(lia) ltac:(lia) A2 X2 Y S F2) as G3.
      destruct (N f2 A2 X2 Y S F2 St2 HS) as (n4 & r4 & f4 & u4 & w4 & G4 & D4).
      pose proof (join _ _ _ _ _ _ _ _ _ G1 _ _ _ _ _ _ (join _ _ _ _ _ _ _ _ _ G2 _ _ _ _ _ _ (join _ _ _ _ _ _ _ _ _ G3 _ _ _ _ _ _ G4))) as G5.
      refine (first_ones _ (Datatypes.S k) _ _ _ _ _ _ _ _ _ G5 _ ltac:(lia)).
      rewrite <- !app_assoc. apply Forall_app. split; [exact D1|]. rewrite app_assoc. apply Forall_app. split.
      * eapply Forall_impl; [|exact D2]. intros z Hz. eapply during_now; eassumption.
      * eapply Forall_impl; [|exact D4]. intros z Hz. eapply during_later; eassumption.
    + right. right. intros f A X Y S P St HS.
      destruct (H f St A X Y S P HS) as (k1 & n1 & A1 & X1 & F1 & f1 & w1 & _ & G1 & St1 & D1).
      destruct (N f1 A1 X1 Y S F1 St1 HS) as (n2 & r2 & f2 & u2 & w2 & G2 & D2). pose proof (join _ _ _ _ _ _ _ _ _ G1 _ _ _ _ _ _ G2) as G5.
      refine (first_ones _ (Datatypes.S k) _ _ _ _ _ _ _ _ _ G5 _ ltac:(lia)). rewrite <- app_assoc. apply Forall_app. split; [exact D1|].
      eapply Forall_impl; [|exact D2]. intros z Hz. eapply during_now; eassumption.
  - destruct (Z_le_dec 2 d) as [Hd|Hd]; [|right; left; apply bursts_call; lia].
    pose proof Pl as (_ & _ & _ & Hj). cbn [proper] in Hj. destruct (nth_error procs j) as [body|] eqn:Ek; [|apply nth_error_None in Ek; lia].
    destruct (IHk body (d - 2) (at_ j) s u ltac:(lia) (proj1 (Hprocs j body Ek))) as [(s' & u' & E)|[O|N]];
      [left; exists s', u'; eapply acts_perform; eassumption|right; left; eapply bursts_body; eassumption|].
    right. right. intros f A X Y S P St HS.
    destruct (call_in j body L s f u d Ek St Pl ltac:(lia) A X Y S P HS) as (f1 & G1 & St1 & _).
    destruct (N f1 A X Y ((S - 2) mod 256) P St1 ltac:(lia)) as (n2 & r2 & f2 & u2 & w2 & G2 & D2). pose proof (join _ _ _ _ _ _ _ _ _ G1 _ _ _ _ _ _ G2) as G5.
    refine (first_ones _ (Datatypes.S k) _ _ _ _ _ _ _ _ _ G5 _ ltac:(lia)). cbn [app]. constructor; [apply during_start|].
    eapply Forall_impl; [|exact D2]. intros z Hz. eapply during_body; eassumption.
Qed.

(** Every state of the device that the meaning names comes about. *)
Lemma stmt_meets d c s u x : during d c s u x -> d <= 256 -> forall L, settled L c -> forall f A X Y S P, ok s f -> 0 <= S < 256 ->
  exists k n r' f' l, go k n (mkRegs A X Y S L P) f u r' f' x l.
Proof.
  assert (Mid : forall k n r f u r' f' u' l z, go k n r f u r' f' u' l -> In z (l ++ [u']) -> exists k n r' f' l, go k n r f u r' f' z l).
  { intros k n r f u0 r' f' u' l z G Hz. destruct (walks_in b dev port ram view p rep lo hi Hport _ _ _ _ _ _ _ _ _ _ G Hz) as (k1 & n1 & r1 & f1 & l1 & _ & G1).
    exists k1, n1, r1, f1, l1. exact G1. }
  assert (More : forall k n r f u r1 f1 u1 l z, go k n r f u r1 f1 u1 l -> (exists k n r' f' l, go k n r1 f1 u1 r' f' z l) -> exists k n r' f' l, go k n r f u r' f' z l).
  { intros k n r f u0 r1 f1 u1 l z G (k2 & n2 & r2 & f2 & l2 & G2). exists (k + k2)%nat, (n + n2)%nat, r2, f2, (l ++ l2). exact (join _ _ _ _ _ _ _ _ _ G _ _ _ _ _ _ G2). }
  induction 1 as [d c s u|d c s u s' u' E|d v e s u x De Mx|d a i e s u x De Di Mx|d a i e s u x De Di Mx|d c1 c2 s u x E IH|d c1 c2 s u s1 u1 x E1 E2 IH|d e c1 c2 s u x De Mx
    |d e c1 c2 s u v u1 x De Ex E IH|d e c s u x De Mx|d e c s u v u1 x De Ex En E IH|d e c s u v u1 s2 u2 x De Ex En E1 E2 IH|d j body s u x Ek Hd E IH];
    intros Hd2 L Pl f A X Y S P St HS.
  - exists 0%nat, 0%nat. do 3 eexists. constructor.
  - destruct (stmt_ends d _ _ _ _ _ E Hd2 L Pl) as (n & Pf). destruct (Pf f A X Y S P St HS) as (k & A1 & X1 & F1 & f1 & w1 & G1 & _). do 5 eexists. exact G1.
  - destruct Pl as (B & H0 & H1 & Wv & R). cbn [emit] in B. unfold size in *. cbn [emit] in *. rewrite len_app in *. change (len [_; _; _]) with 3 in *.
    replace (len (code 0 e)) with (len (code t e)) in * by (unfold len; f_equal; apply code_length).
    apply bytes_from_app in B. fold (len (code t e)) in B. destruct B as [Be _]. pose proof (len_nonneg (code t e)) as Hl.
    destruct (expr_in e L s f u d St Be H0 ltac:(lia) R De Hd2 A X Y S P HS) as (k & X' & P' & f' & w & Hk & G & Zf & St' & K & Vb & Hm).
    eapply Mid; [exact G|]. apply Hm. exact Mx.
  - destruct Pl as (B & H0 & H1 & Wa & Ri & R). cbn [emit] in B. unfold size in *. cbn [emit] in *. rewrite !len_app in *.
    change (len [_; _; _; _; _]) with 5 in *. change (len [_]) with 1 in *.
    replace (len (code 0 e)) with (len (code t e)) in * by (unfold len; f_equal; apply code_length).
    replace (len (code 0 i)) with (len (code t i)) in * by (unfold len; f_equal; apply code_length).
    apply bytes_from_app in B. destruct B as [Be _]. pose proof (len_nonneg (code t e)) as Hl. pose proof (len_nonneg (code t i)) as Hl2.
    destruct (expr_in e L s f u d St Be H0 ltac:(lia) R De Hd2 A X Y S P HS) as (k & X1 & P1 & f1 & w1 & Hk & G & _ & St1 & K1 & Vb & Hm).
    eapply Mid; [exact G|]. apply Hm. exact Mx.
  - destruct Pl as (B & H0 & H1 & Wa & Ri & R). cbn [emit] in B. unfold size in *. cbn [emit] in *. rewrite !len_app in *.
    change (len [_; _; _; _; _]) with 5 in *. change (len [_]) with 1 in *.
    replace (len (code 0 e)) with (len (code t e)) in * by (unfold len; f_equal; apply code_length).
    replace (len (code 0 i)) with (len (code t i)) in * by (unfold len; f_equal; apply code_length).
    apply bytes_from_app in B. destruct B as [Be B]. apply bytes_from_app in B. destruct B as [(B0 & _) B].
    apply bytes_from_app in B. destruct B as [Bi _]. cbn [length] in *.
    fold (len (code t e)) in *. fold (len (code t i)) in *. pose proof (len_nonneg (code t e)) as Hl. pose proof (len_nonneg (code t i)) as Hl2.
    destruct (expr_in e L s f u d St Be H0 ltac:(lia) R De Hd2 A X Y S P HS) as (k & X1 & P1 & f1 & w1 & Hk & G & _ & St1 & K1 & Vb & Hm).
    set (l := len (code t e)) in *. set (l2 := len (code t i)) in *. replace (L + l + Z.of_nat 1) with (L + l + 1) in * by lia.
    pose proof St1 as (_ & Hi1 & _). destruct (asks s u e) as [v u1] eqn:Ex. cbn [fst snd] in *.
    pose proof (i_pha p mem v X1 Y S (L + l) P1 f1 ltac:(lia) ltac:(byte) (page_ram mem t lo hi Hs _ (on_page _))) as I1.
    pose proof (w_one 0x48 Pha Implied 3 _ _ _ u1 _ _ I1 ltac:(cbn [rPC]; lia) ltac:(cbn [rPC]; byte) eq_refl ltac:(still)) as W1.
    pose proof (depth_nonneg i) as Dn.
    pose proof (ok_pushed s f1 (stack S) v (on_page S) St1 Vb) as St2.
    set (f2 := store1 f1 (stack S, v)) in *.
    destruct (expr_in i (L + l + 1) s f2 u1 (d - 1) St2 Bi ltac:(lia) ltac:(fold l2; lia) Ri ltac:(lia) ltac:(lia) v X1 Y ((S - 1) mod 256) P1 ltac:(lia))
      as (k2 & X2 & P2 & f3 & w2 & Hk2 & G2 & _ & St3 & K3 & Vbi & Hm2).
    eapply More; [exact G|]. eapply More; [exact W1|]. eapply Mid; [exact G2|]. apply Hm2. exact Mx.
  - destruct (s_next _ _ _ Pl) as (P1 & P2). exact (IH Hd2 L P1 f A X Y S P St HS).
  - destruct (s_next _ _ _ Pl) as (P1 & P2). destruct (stmt_ends d _ _ _ _ _ E1 Hd2 L P1) as (n1 & Pf).
    destruct (Pf f A X Y S P St HS) as (k1 & A1 & X1 & F1 & f1 & w1 & G1 & St1 & _ & D1). eapply More; [exact G1|]. exact (IH Hd2 _ P2 f1 A1 X1 Y S F1 St1 HS).
  - destruct (s_cond _ _ _ _ Pl) as (Bt & H0 & Ge & P1 & P2 & EL & Bj).
    pose proof P2 as (_ & _ & H2 & _). pose proof P1 as (_ & H3 & _). pose proof (size_nonneg c1) as Hl1. pose proof (size_nonneg c2) as Hl2.
    destruct (test_in e _ L s f u d St Bt H0 ltac:(lia) Ge De Hd2 A X Y S P HS) as (k1 & n1 & A1 & X1 & F1 & f1 & w1 & _ & G1 & St1 & _ & Hm).
    eapply Mid; [exact G1|]. apply Hm. exact Mx.
  - destruct (s_cond _ _ _ _ Pl) as (Bt & H0 & Ge & P1 & P2 & EL & Bj).
    pose proof P2 as (_ & _ & H2 & _). pose proof P1 as (_ & H3 & _). pose proof (size_nonneg c1) as Hl1. pose proof (size_nonneg c2) as Hl2.
    destruct (test_in e _ L s f u d St Bt H0 ltac:(lia) Ge De Hd2 A X Y S P HS) as (k1 & n1 & A1 & X1 & F1 & f1 & w1 & _ & G1 & St1 & _ & Hm).
    rewrite Ex in G1. cbn [fst snd] in G1. eapply More; [exact G1|]. destruct (v =? 0); [exact (IH Hd2 _ P2 f1 A1 X1 Y S F1 St1 HS)|exact (IH Hd2 _ P1 f1 A1 X1 Y S F1 St1 HS)].
  - destruct (s_again _ _ _ Pl) as (Bt & H0 & Ge & P1 & EL & H2 & Bj). pose proof (size_nonneg c) as Hl1. pose proof P1 as (_ & H3 & _).
    destruct (test_in e _ L s f u d St Bt H0 ltac:(lia) Ge De Hd2 A X Y S P HS) as (k1 & n1 & A1 & X1 & F1 & f1 & w1 & _ & G1 & St1 & _ & Hm).
    eapply Mid; [exact G1|]. apply Hm. exact Mx.
  - destruct (s_again _ _ _ Pl) as (Bt & H0 & Ge & P1 & EL & H2 & Bj). pose proof (size_nonneg c) as Hl1. pose proof P1 as (_ & H3 & _).
    destruct (test_in e _ L s f u d St Bt H0 ltac:(lia) Ge De Hd2 A X Y S P HS) as (k1 & n1 & A1 & X1 & F1 & f1 & w1 & _ & G1 & St1 & _ & Hm).
    rewrite Ex in G1. cbn [fst snd] in G1. replace (v =? 0) with false in G1 by lia. eapply More; [exact G1|]. exact (IH Hd2 _ P1 f1 A1 X1 Y S F1 St1 HS).
  - destruct (s_again _ _ _ Pl) as (Bt & H0 & Ge & P1 & EL & H2 & Bj). pose proof (size_nonneg c) as Hl1. pose proof P1 as (_ & H3 & _).
    destruct (test_in e _ L s f u d St Bt H0 ltac:(lia) Ge De Hd2 A X Y S P HS) as (k1 & n1 & A1 & X1 & F1 & f1 & w1 & _ & G1 & St1 & _ & Hm).
    rewrite Ex in G1. cbn [fst snd] in G1. replace (v =? 0) with false in G1 by lia. eapply More; [exact G1|].
    destruct (stmt_ends d _ _ _ _ _ E1 Hd2 _ P1) as (n2 & Pf). destruct (Pf f1 A1 X1 Y S F1 St1 HS) as (k2 & A2 & X2 & F2 & f2 & w2 & G2 & St2 & _ & D2).
    eapply More; [exact G2|].
    pose proof (jump_in _ _ f2 u2 ltac:(apply St2) Bj ltac:(lia) ltac:(lia) A2 X2 Y S F2) as G3. eapply More; [exact G3|].
    exact (IH Hd2 L Pl f2 A2 X2 Y S F2 St2 HS).
  - destruct (call_in j body L s f u d Ek St Pl ltac:(lia) A X Y S P HS) as (f1 & G1 & St1 & _). eapply More; [exact G1|].
    exact (IH ltac:(lia) _ (proj1 (Hprocs j body Ek)) f1 A X Y ((S - 2) mod 256) P St1 ltac:(lia)).
Qed.
End Statements.
