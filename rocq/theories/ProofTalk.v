(** Executing translated programs on a bus with a device that reacts. *)
From Verif Require Import Base Arith ModelMap ModelRegs6502 ModelIsa6502 ModelCpu6502 ModelOperand ModelBus Link6502 Spec6502 SpecProgram ProofProgram SpecRoutines ProofRoutines
  SpecBus ProofBus ProofBusStep ProofBusRun SpecLanguage ProofLanguage SpecProcedures ProofProcedures SpecTalk.

(** ** Expressions *)
Section Meaning.
Context {T : Type} (dev : device T) (port : Z -> bool).
Context (Hbytes : forall u a, 0 <= fst (d_get dev u a) < 256).
Context (Q : Z -> Prop) (s s' : Z -> Z) (Es : forall q, Q q -> s' q = s q) (Bs : forall q, Q q -> 0 <= s q < 256).
Lemma look_ext u a : Q a -> look dev port s' u a = look dev port s u a /\ 0 <= fst (look dev port s u a) < 256.
Proof.
  intros Ha. unfold look. destruct (port a); [split; [reflexivity|apply Hbytes]|]. rewrite (Es a Ha). split; [reflexivity|apply Bs; exact Ha].
Qed.
Lemma asks_ext e : reads Q e -> forall u, asks dev port s' u e = asks dev port s u e /\ 0 <= fst (asks dev port s u e) < 256.
Proof.
  induction e as [k|v|a i IH|e IH|e IH|o e1 IH1 e2 IH2]; cbn [reads asks]; intros R u.
  - split; [reflexivity|exact R].
  - apply look_ext. exact R.
  - destruct R as [R1 R2]. destruct (IH R2 u) as [E B]. rewrite E. destruct (asks dev port s u i) as [x u1]. apply look_ext. apply R1. exact B.
  - destruct (IH R u) as [E B]. rewrite E. destruct (asks dev port s u e) as [x u1]. cbn [fst] in *. split; [reflexivity|lia].
  - destruct (IH R u) as [E B]. rewrite E. destruct (asks dev port s u e) as [x u1]. cbn [fst] in *. split; [reflexivity|lia].
  - destruct R as [R1 R2]. destruct (IH1 R1 u) as [E B]. rewrite E. destruct (asks dev port s u e1) as [x u1]. destruct (IH2 R2 u1) as [E2 B2]. rewrite E2.
    destruct (asks dev port s u1 e2) as [y u2]. cbn [fst] in *. split; [reflexivity|].
    exact (proj2 (value_ext (fun _ => True) (fun _ => 0) (fun _ => 0) (Op o (Const x) (Const y)) (fun _ _ => eq_refl) (conj B B2) ltac:(intros; lia))).
Qed.
Lemma spends_ext e : reads Q e -> forall u, spends dev port s' u e = spends dev port s u e.
Proof.
  induction e as [k|v|a i IH|e IH|e IH|o e1 IH1 e2 IH2]; cbn [reads spends]; intros R u; try reflexivity.
  - destruct R as [_ R2]. rewrite (IH R2 u). destruct (asks_ext i R2 u) as [-> _]. reflexivity.
  - rewrite (IH R u). reflexivity.
  - rewrite (IH R u). reflexivity.
  - destruct R as [R1 R2]. rewrite (IH1 R1 u). destruct (asks_ext e1 R1 u) as [-> _]. rewrite (IH2 R2). reflexivity.
Qed.
Lemma meets_ext e : reads Q e -> forall u u1, meets dev port s' u e u1 <-> meets dev port s u e u1.
Proof.
  induction e as [k|v|a i IH|e IH|e IH|o e1 IH1 e2 IH2]; cbn [reads meets]; intros R u u1; try reflexivity.
  - destruct (look_ext u v R) as [-> _]. reflexivity.
  - destruct (asks_ext (Item a i) R u) as [-> _]. destruct R as [_ R2]. rewrite (IH R2 u u1). reflexivity.
  - apply IH. exact R.
  - apply IH. exact R.
  - destruct R as [R1 R2]. rewrite (IH1 R1 u u1). destruct (asks_ext e1 R1 u) as [-> _]. rewrite (IH2 R2). reflexivity.
Qed.
Lemma meets_first e : forall u, meets dev port s u e u.
Proof. induction e; intros u; cbn [meets]; auto. Qed.
Lemma meets_last e : forall u, meets dev port s u e (snd (asks dev port s u e)).
Proof.
  induction e as [k|v|a i IH|e IH|e IH|o e1 IH1 e2 IH2]; intros u; cbn [meets asks]; auto.
  - specialize (IH u). destruct (asks dev port s u e) as [x u1]. exact IH.
  - specialize (IH u). destruct (asks dev port s u e) as [x u1]. exact IH.
  - right. destruct (asks dev port s u e1) as [x u1]. cbn [snd]. specialize (IH2 u1). destruct (asks dev port s u1 e2) as [y u2]. exact IH2.
Qed.
End Meaning.

(** ** Time and meaning *)
Section Time.
Context {T : Type} (dev : device T) (port : Z -> bool) (rep : nat) (procs : list stmt) (at_ : nat -> Z).
Notation acts := (acts dev port rep procs).
Notation acts_in := (acts_in dev port rep procs at_).
Lemma acts_acts_in d c s u s' u' : acts d c s u s' u' -> forall L, exists n, acts_in d L c s u s' u' n.
Proof.
  induction 1 as [d s u|d v e s u x u1 De Ex|d a i e s u x u1 y u2 De Di Ex Ey|d c1 c2 s u s1 u1 s2 u2 E1 IH1 E2 IH2|d e c1 c2 s u x u1 s' u' De Ex E IH|d e c s u u1 De Ex
    |d e c s u x u1 s2 u2 s3 u3 De Ex Nx E1 IH1 E2 IH2|d k body s u s' u' Ek Hd E IH]; intros L.
  - eexists. constructor.
  - eexists. constructor; eassumption.
  - eexists. econstructor; eassumption.
  - destruct (IH1 L) as [n1 T1], (IH2 (L + size c1)) as [n2 T2]. eexists. econstructor; eassumption.
  - destruct (x =? 0) eqn:E0.
    + replace x with 0 in Ex by lia. destruct (IH (L + width e + 7 + size c1 + 3)) as [n T1]. eexists. eapply in_else; eassumption.
    + destruct (IH (L + width e + 7)) as [n T1]. eexists. eapply in_then; [eassumption|eassumption|lia|exact T1].
  - eexists. eapply in_stop; eassumption.
  - destruct (IH1 (L + width e + 7)) as [n1 T1], (IH2 L) as [n2 T2]. eexists. eapply in_again; eassumption.
  - destruct (IH (at_ k)) as [n T1]. eexists. eapply in_perform; eassumption.
Qed.
Lemma acts_in_acts d L c s u s' u' n : acts_in d L c s u s' u' n -> acts d c s u s' u'.
Proof.
  induction 1; try (econstructor; eassumption).
  - econstructor; [eassumption|eassumption|]. replace (x =? 0) with false by lia. assumption.
Qed.
End Time.

(** ** Instructions *)
Section Talk.
Context {BS T : Type} (b : bus BS) (dev : device T) (port : Z -> bool) (ram : Z -> Prop) (view : BS -> (Z -> Z) -> T -> Prop).
Context (Hb : talking b dev port ram view) (p : profile) (rep : nat) (lo hi : Z).
Context (Hlo : 0 <= lo) (Hhi : hi <= 0xfffe) (Hport : forall q, lo <= q < hi + 2 -> port q = false).

(** What the instruction at the program counter will do, and the device after its reads. *)
Definition will (r : registers) (f : Z -> Z) (u : T) (e : effect) (u1 : T) : Prop :=
  forall s, view s f u -> exists s', bus_effect b p r s = Ok (e, s') /\ view s' f u1.
(** [k] instructions lying at addresses from [lo] up to [hi]; the list holds
    the device before each of them. *)
Inductive walks : nat -> nat -> registers -> (Z -> Z) -> T -> registers -> (Z -> Z) -> T -> list T -> Prop :=
| walks_done r f u : walks 0 0 r f u r f u []
| walks_step k n r f u e u1 r' f' u' l : lo <= rPC r < hi -> will r f u e u1 -> Forall (fun w => ram (fst w) /\ port (fst w) = false) (e_stores e) ->
    walks k n (e_regs e) (stored f (e_stores e)) u1 r' f' u' l -> walks (S k) (e_cycles e + n) r f u r' f' u' (u :: l)
| walks_send k n r f u e a v r' f' u' l : lo <= rPC r < hi -> will r f u e u -> e_stores e = [(a, v)] -> port a = true ->
    walks k n (e_regs e) f (dev_after dev port rep u a v) r' f' u' l -> walks (S k) (e_cycles e + n) r f u r' f' u' (u :: l).

Lemma walks_app k n r f u r1 f1 u1 l : walks k n r f u r1 f1 u1 l -> forall k' n' r2 f2 u2 l',
  walks k' n' r1 f1 u1 r2 f2 u2 l' -> walks (k + k') (n + n') r f u r2 f2 u2 (l ++ l').
Proof.
  induction 1 as [r f u|k n r f u e u1 r' f' u' l Hp E F X IH|k n r f u e a v r' f' u' l Hp E F Pa X IH]; intros k' n' r2 f2 u2 l' Y; [exact Y| |];
    rewrite <- Nat.add_assoc.
  - eapply walks_step; eauto.
  - eapply walks_send; eauto.
Qed.
Lemma walks_cost k n n' r f u r' f' u' l : walks k n r f u r' f' u' l -> n = n' -> walks k n' r f u r' f' u' l.
Proof. intros G <-. exact G. Qed.
Lemma walks_length k n r f u r' f' u' l : walks k n r f u r' f' u' l -> length l = k.
Proof. induction 1; cbn [length]; congruence. Qed.
Lemma walks_take m : forall k n r f u r' f' u' l, walks k n r f u r' f' u' l -> (m <= k)%nat ->
  exists n1 r1 f1 u1, walks m n1 r f u r1 f1 u1 (firstn m l) /\ nth_error (l ++ [u']) m = Some u1.
Proof.
  induction m as [|m IH]; intros k n r f u r' f' u' l X Hm.
  { exists 0%nat, r, f, u. split; [constructor|]. destruct X; reflexivity. }
  inversion X as [|k0 n0 r0 f0 u0 e u1 r1 f1 u1' l0 Hp E F Y|k0 n0 r0 f0 u0 e a v r1 f1 u1' l0 Hp E F Pa Y]; subst; [lia| |];
    destruct (IH _ _ _ _ _ _ _ _ _ Y ltac:(lia)) as (n1 & r2 & f2 & u2 & Z & N); exists (e_cycles e + n1)%nat, r2, f2, u2; (split; [|exact N]).
  - eapply walks_step; eassumption.
  - eapply walks_send; eassumption.
Qed.
(** Where the walk meets a state of the device. *)
Lemma walks_in k n r f u r' f' u' l x : walks k n r f u r' f' u' l -> In x (l ++ [u']) -> exists k1 n1 r1 f1 l1, (k1 <= k)%nat /\ walks k1 n1 r f u r1 f1 x l1.
Proof.
  intros X Hx. apply In_nth_error in Hx. destruct Hx as [m Hm]. pose proof (walks_length _ _ _ _ _ _ _ _ _ X) as Hl.
  assert (Hmk : (m <= k)%nat). { assert (m < length (l ++ [u']))%nat by (apply nth_error_Some; congruence). rewrite app_length in *. cbn [length] in *. lia. }
  destruct (walks_take m _ _ _ _ _ _ _ _ _ X Hmk) as (n1 & r1 & f1 & u1 & Y & N). rewrite Hm in N. injection N as <-.
  exists m, n1, r1, f1. eexists. split; [exact Hmk|exact Y].
Qed.

Lemma fetched r f u op mn m c : lo <= rPC r < hi -> f (rPC r) = op -> decode op = Some (mn, m, c) ->
  forall s, view s f u -> exists s', bus_effect b p r s = bus_execute b p mn m c r (f (rPC r + 1)) (f (rPC r + 2)) s' /\ view s' f u.
Proof.
  intros Hp <- Hd s V. destruct (t_read _ _ _ _ _ Hb s f u (rPC r) V ltac:(unfold u16; lia) ltac:(apply Hport; lia)) as (s1 & E1 & V1).
  destruct (t_read _ _ _ _ _ Hb s1 f u (rPC r + 1) V1 ltac:(unfold u16; lia) ltac:(apply Hport; lia)) as (s2 & E2 & V2).
  destruct (t_read _ _ _ _ _ Hb s2 f u (rPC r + 2) V2 ltac:(unfold u16; lia) ltac:(apply Hport; lia)) as (s3 & E3 & V3).
  exists s3. split; [|exact V3]. unfold bus_effect, bus_fetch, after, ask, unchecked. rewrite E1.
  replace (rPC r + 1 <? 65536) with true by lia. cbn [given done]. unfold done. rewrite E2.
  replace (rPC r + 2 <? 65536) with true by lia. cbn [given done]. unfold done. rewrite E3, Hd. reflexivity.
Qed.

(** An instruction that reads and writes memory only. *)
Definition unheard (mn : mnemonic) (m : addressing_mode) (c : nat) (r : registers) (f : Z -> Z) (b1 b2 : Z) (u : T) : Prop :=
  forall s, view s f u -> exists s', bus_execute b p mn m c r b1 b2 s = given (execute p mn m c r f b1 b2) s' /\ view s' f u.
Lemma walks_one op mn m c n r f u r' f' : exec p (fun q => ram q /\ port q = false) 1 n r f r' f' -> lo <= rPC r < hi -> f (rPC r) = op -> decode op = Some (mn, m, c) ->
  unheard mn m c r f (f (rPC r + 1)) (f (rPC r + 2)) u -> walks 1 n r f u r' f' u [u].
Proof.
  intros X Hp Hf Hd Hu. inversion X as [|k t0 r0 f0 e r1 f1 E F Y]; subst. inversion Y; subst. eapply (walks_step 0); [exact Hp| |exact F|constructor].
  intros s V. destruct (fetched r f u _ mn m c Hp eq_refl Hd s V) as (s1 & E1 & V1). rewrite E1.
  destruct (Hu s1 V1) as (s2 & E2 & V2). exists s2. split; [|exact V2]. rewrite E2.
  rewrite (step_at p r f _ mn m c ltac:(lia) eq_refl Hd) in E. rewrite E. reflexivity.
Qed.
Lemma unheard_quiet mn m c r f b1 b2 u : (forall s, bus_execute b p mn m c r b1 b2 s = given (execute p mn m c r f b1 b2) s) -> unheard mn m c r f b1 b2 u.
Proof. intros H s V. exists s. split; [apply H|exact V]. Qed.
Lemma unheard_read mn c r f a u : u16 a -> port a = false -> In mn [Lda; Adc; Sbc; And; Ora; Eor] -> unheard mn Absolute c r f (low a) (high a) u.
Proof.
  intros Ua Pa Hm s V. destruct (t_read _ _ _ _ _ Hb s f u a V Ua Pa) as (s1 & E1 & V1). exists s1. split; [|exact V1].
  cbn [In] in Hm. decompose [or] Hm; subst; try contradiction; unfold bus_execute, execute, bus_read_op, read_op, operand_value, bus_address, operand_address, after, ask, done; rewrite word_halves, E1; reflexivity.
Qed.
Lemma unheard_pla c r f b1 b2 u : port (stack (rS r + 1)) = false -> unheard Pla Implied c r f b1 b2 u.
Proof.
  intros Pa s V. destruct (t_read _ _ _ _ _ Hb s f u _ V (stack_u16 _) Pa) as (s1 & E1 & V1). exists s1. split; [|exact V1].
  unfold bus_execute, execute, after, ask, done. rewrite E1. reflexivity.
Qed.
Lemma unheard_rts c r f b1 b2 u : port (stack (rS r + 1)) = false -> port (stack (rS r + 2)) = false -> unheard Rts Implied c r f b1 b2 u.
Proof.
  intros Pa Pb s V. destruct (t_read _ _ _ _ _ Hb s f u _ V (stack_u16 _) Pa) as (s1 & E1 & V1).
  destruct (t_read _ _ _ _ _ Hb s1 f u _ V1 (stack_u16 _) Pb) as (s2 & E2 & V2). exists s2. split; [|exact V2].
  unfold bus_execute, execute, after, ask, done. rewrite E1, E2. reflexivity.
Qed.

Notation look := (look dev port).
Lemma look_will s f u a : view s f u -> u16 a -> exists s', b_read b s a = Ok (fst (look f u a), s') /\ view s' f (snd (look f u a)).
Proof.
  intros V Ua. unfold SpecTalk.look. destruct (port a) eqn:E; [apply (t_get _ _ _ _ _ Hb); assumption|]. apply (t_read _ _ _ _ _ Hb); assumption.
Qed.
Lemma w_lda A X Y S PC P f u a : lo <= PC -> PC + 3 <= hi -> f PC = 0xad -> f (PC + 1) = low a -> f (PC + 2) = high a -> u16 a ->
  walks 1 4 (mkRegs A X Y S PC P) f u (mkRegs (fst (look f u a)) X Y S (PC + 3) (nzf P (fst (look f u a)))) f (snd (look f u a)) [u].
Proof.
  intros H1 H2 H3 H4 H5 Ua.
  eapply (walks_step 0 0 _ _ _ (mkEffect (mkRegs (fst (look f u a)) X Y S (PC + 3) (nzf P (fst (look f u a)))) [] 4)); [cbn [rPC]; lia| |constructor|constructor].
  intros s V. destruct (fetched (mkRegs A X Y S PC P) f u 0xad Lda Absolute 4 ltac:(cbn [rPC]; lia) H3 eq_refl s V) as (s1 & E1 & V1). rewrite E1.
  cbn [rPC]. rewrite H4, H5. unfold bus_execute, bus_read_op, bus_address, after, ask, done. rewrite word_halves.
  destruct (look_will s1 f u a V1 Ua) as (s2 & E2 & V2). rewrite E2. exists s2. split; [|exact V2]. rewrite <- (pc_plus PC 3) by lia. reflexivity.
Qed.
Lemma w_lda_x A X Y S PC P f u a : lo <= PC -> PC + 3 <= hi -> f PC = 0xbd -> f (PC + 1) = low a -> f (PC + 2) = high a -> u16 (a + X) ->
  walks 1 (if (a + X) / 256 =? a / 256 then 4 else 5) (mkRegs A X Y S PC P) f u
    (mkRegs (fst (look f u (a + X))) X Y S (PC + 3) (nzf P (fst (look f u (a + X))))) f (snd (look f u (a + X))) [u].
Proof.
  intros H1 H2 H3 H4 H5 Ua.
  eapply walks_cost; [eapply (walks_step 0 0 _ _ _ (mkEffect (mkRegs (fst (look f u (a + X))) X Y S (PC + 3) (nzf P (fst (look f u (a + X))))) [] (if (a + X) / 256 =? a / 256 then 4 else 5))); [cbn [rPC]; lia| |constructor|constructor]|cbn [e_cycles]; lia].
  intros s V. destruct (fetched (mkRegs A X Y S PC P) f u 0xbd Lda AbsoluteIndexedWithX 4 ltac:(cbn [rPC]; lia) H3 eq_refl s V) as (s1 & E1 & V1). rewrite E1.
  cbn [rPC]. rewrite H4, H5. unfold bus_execute, bus_read_op, bus_address, after, ask, done. rewrite word_halves. cbn [rX]. rewrite (Z.mod_small (a + X)) by (unfold u16 in Ua; lia).
  destruct (look_will s1 f u (a + X) V1 Ua) as (s2 & E2 & V2). rewrite E2. exists s2. split; [|exact V2].
  unfold read_penalty. rewrite word_halves. rewrite <- (pc_plus PC 3) by lia. destruct (_ =? _); reflexivity.
Qed.
(** Memory and device after a store. *)
Definition placed (f : Z -> Z) (a v : Z) : Z -> Z := if port a then f else store1 f (a, v).
Notation dev_after := (dev_after dev port rep).
Lemma w_store mn m c r f u a v r' n : lo <= rPC r < hi -> decode (f (rPC r)) = Some (mn, m, c) ->
  (forall s, bus_execute b p mn m c r (f (rPC r + 1)) (f (rPC r + 2)) s = Ok (mkEffect r' [(a, v)] n, s)) -> ram a \/ port a = true ->
  walks 1 n r f u r' (placed f a v) (dev_after u a v) [u].
Proof.
  intros Hp Hd He Ha.
  assert (Wl : will r f u (mkEffect r' [(a, v)] n) u).
  { intros s V. destruct (fetched r f u _ mn m c Hp eq_refl Hd s V) as (s1 & E1 & V1). rewrite E1, He. exists s1. split; [reflexivity|exact V1]. }
  unfold placed. destruct (port a) eqn:Pa.
  - eapply walks_cost; [eapply (walks_send 0 0); [exact Hp|exact Wl|reflexivity|exact Pa|constructor]|cbn [e_cycles]; lia].
  - unfold SpecTalk.dev_after. rewrite Pa. eapply walks_cost; [eapply (walks_step 0 0); [exact Hp|exact Wl| |constructor]|cbn [e_cycles]; lia].
    constructor; [|constructor]. cbn [fst]. destruct Ha as [Ha|Ha]; [split; assumption|congruence].
Qed.
Lemma w_sta A X Y S PC P f u a : lo <= PC -> PC + 3 <= hi -> f PC = 0x8d -> f (PC + 1) = low a -> f (PC + 2) = high a -> ram a \/ port a = true ->
  walks 1 4 (mkRegs A X Y S PC P) f u (mkRegs A X Y S (PC + 3) P) (placed f a A) (dev_after u a A) [u].
Proof.
  intros H1 H2 H3 H4 H5 Ha. apply (w_store Sta Absolute 4); [cbn [rPC]; lia|cbn [rPC]; rewrite H3; reflexivity| |exact Ha].
  intros s. cbn [rPC]. rewrite H4, H5. unfold bus_execute, bus_store_op, bus_address, after, done. rewrite word_halves, <- (pc_plus PC 3) by lia. reflexivity.
Qed.
Lemma w_sta_x A X Y S PC P f u a : lo <= PC -> PC + 3 <= hi -> f PC = 0x9d -> f (PC + 1) = low a -> f (PC + 2) = high a -> u16 (a + X) -> ram (a + X) \/ port (a + X) = true ->
  walks 1 5 (mkRegs A X Y S PC P) f u (mkRegs A X Y S (PC + 3) P) (placed f (a + X) A) (dev_after u (a + X) A) [u].
Proof.
  intros H1 H2 H3 H4 H5 Ua Ha. apply (w_store Sta AbsoluteIndexedWithX 5); [cbn [rPC]; lia|cbn [rPC]; rewrite H3; reflexivity| |exact Ha].
  intros s. cbn [rPC]. rewrite H4, H5. unfold bus_execute, bus_store_op, bus_address, after, done. rewrite word_halves. cbn [rX].
  rewrite (Z.mod_small (a + X)) by (unfold u16 in Ua; lia). rewrite <- (pc_plus PC 3) by lia. reflexivity.
Qed.
End Talk.

(** ** Expressions in their place *)
Section Language.
Context {BS T : Type} (b : bus BS) (dev : device T) (port : Z -> bool) (ram : Z -> Prop) (view : BS -> (Z -> Z) -> T -> Prop).
Context (Hb : talking b dev port ram view) (p : profile) (rep : nat) (t lo hi : Z) (text : Z -> Z).
Context (Hlo : 0 <= lo) (Hhi : hi <= 0xfffe) (Hport : forall q, lo <= q < hi + 2 -> port q = false).
Notation mem := (fun q => ram q /\ port q = false).
Context (Hs : forall q, scratch t q -> u16 q /\ mem q /\ ~ (lo <= q < hi)) (Ht1 : ~ page_one t).
Notation go := (walks b dev port ram view p rep lo hi).
Notation asks := (asks dev port).
Notation spends := (spends dev port).
Notation meets := (meets dev port).
Notation Q := (fun q => u16 q /\ ~ scratch t q).
Ltac byte := match goal with
  | I : intact lo hi text ?f |- ?f ?q = ?b => rewrite (I q) by lia;
      match goal with B : text ?q' = b |- _ => replace q with q' by lia; exact B end end.
Notation w_one := (walks_one b dev port ram view Hb p rep lo hi Hlo Hhi Hport).
Notation join := (walks_app b dev port ram view p rep lo hi).
Ltac still := apply unheard_quiet; intros; reflexivity.
Lemma scratch_port q : scratch t q -> port q = false.
Proof. intros H. apply (Hs q H). Qed.
Lemma stack_port n : port (stack n) = false.
Proof. apply scratch_port, (stack_scratch mem t lo hi text Hs). Qed.
Lemma stack_mem n : mem (stack n).
Proof. apply (Hs _ (stack_scratch mem t lo hi text Hs n)). Qed.
Notation calm_text := (calm_intact mem t lo hi text Hs).
Notation quietly := (quiet_calm mem t lo hi text Hs).

Lemma op_walks o : forall A X Y S L P f u, intact lo hi text f -> bytes_from text L (op_code o t) -> lo <= L -> L + len (op_code o t) <= hi -> 0 <= A < 256 ->
  exists k P' l, go k (op_time o) (mkRegs A X Y S L P) f u (mkRegs (apply o A (f t)) X Y S (L + len (op_code o t)) P') f u l /\
    ps_zero P' = (apply o A (f t) =? 0) /\ (forall x, In x l -> x = u).
Proof.
  assert (Ht : u16 t) by (apply Hs; left; reflexivity). assert (Pt : port t = false) by (apply scratch_port; left; reflexivity).
  intros A X Y S L P f u Hi B H0 H1 HA. destruct o; unfold len in *; cbn [op_code length] in *.
  - destruct B as (B0 & B1 & B2 & B3 & _).
    pose proof (i_clc p mem A X Y S L P f ltac:(lia) ltac:(byte)) as X1.
    destruct (i_alu p mem A X Y S (L + 1) (with_c P false) f 0x6d Adc t (apply Plus A (f t)) ltac:(lia) ltac:(byte) ltac:(byte) ltac:(byte) eq_refl) as (P' & Z1 & X2).
    { unfold execute, read_op, operand_value, operand_address. rewrite word_halves. eexists. split; [|reflexivity]. reflexivity. }
    pose proof (w_one 0x18 Clc Implied 2 _ _ _ u _ _ X1 ltac:(cbn [rPC]; lia) ltac:(cbn [rPC]; byte) eq_refl ltac:(still)) as W1.
    pose proof (w_one 0x6d Adc Absolute 4 _ _ _ u _ _ X2 ltac:(cbn [rPC]; lia) ltac:(cbn [rPC]; byte) eq_refl) as W2. cbn [rPC] in W2.
    replace (f (L + 1 + 1)) with (low t) in W2 by (symmetry; byte). replace (f (L + 1 + 2)) with (high t) in W2 by (symmetry; byte).
    specialize (W2 ltac:(apply (unheard_read b dev port ram view Hb p); [exact Ht|exact Pt|cbn; tauto])).
    exists 2%nat, P', [u; u]. replace (L + Z.of_nat 4) with (L + 1 + 3) by lia. split; [exact (join _ _ _ _ _ _ _ _ _ W1 _ _ _ _ _ _ W2)|].
    split; [exact Z1|]. cbn [In]. intuition congruence.
  - destruct B as (B0 & B1 & B2 & B3 & _).
    pose proof (i_sec p mem A X Y S L P f ltac:(lia) ltac:(byte)) as X1.
    destruct (i_alu p mem A X Y S (L + 1) (with_c P true) f 0xed Sbc t (apply Minus A (f t)) ltac:(lia) ltac:(byte) ltac:(byte) ltac:(byte) eq_refl) as (P' & Z1 & X2).
    { unfold execute, read_op, operand_value, operand_address. rewrite word_halves. cbn [apply]. replace (A - f t) with (A - f t - 0) by lia.
      eexists. split; [|reflexivity]. reflexivity. }
    pose proof (w_one 0x38 Sec Implied 2 _ _ _ u _ _ X1 ltac:(cbn [rPC]; lia) ltac:(cbn [rPC]; byte) eq_refl ltac:(still)) as W1.
    pose proof (w_one 0xed Sbc Absolute 4 _ _ _ u _ _ X2 ltac:(cbn [rPC]; lia) ltac:(cbn [rPC]; byte) eq_refl) as W2. cbn [rPC] in W2.
    replace (f (L + 1 + 1)) with (low t) in W2 by (symmetry; byte). replace (f (L + 1 + 2)) with (high t) in W2 by (symmetry; byte).
    specialize (W2 ltac:(apply (unheard_read b dev port ram view Hb p); [exact Ht|exact Pt|cbn; tauto])).
    exists 2%nat, P', [u; u]. replace (L + Z.of_nat 4) with (L + 1 + 3) by lia. split; [exact (join _ _ _ _ _ _ _ _ _ W1 _ _ _ _ _ _ W2)|].
    split; [exact Z1|]. cbn [In]. intuition congruence.
  - destruct B as (B0 & B1 & B2 & _).
    destruct (i_alu p mem A X Y S L P f 0x2d And t (apply Conj A (f t)) ltac:(lia) ltac:(byte) ltac:(byte) ltac:(byte) eq_refl) as (P' & Z1 & X2).
    { unfold execute, read_op, operand_value, operand_address. rewrite word_halves. eexists. split; [|reflexivity]. reflexivity. }
    pose proof (w_one 0x2d And Absolute 4 _ _ _ u _ _ X2 ltac:(cbn [rPC]; lia) ltac:(cbn [rPC]; byte) eq_refl) as W2. cbn [rPC] in W2.
    replace (f (L + 1)) with (low t) in W2 by (symmetry; byte). replace (f (L + 2)) with (high t) in W2 by (symmetry; byte).
    specialize (W2 ltac:(apply (unheard_read b dev port ram view Hb p); [exact Ht|exact Pt|cbn; tauto])).
    exists 1%nat, P', [u]. split; [exact W2|]. split; [exact Z1|]. cbn [In]. intuition congruence.
  - destruct B as (B0 & B1 & B2 & _).
    destruct (i_alu p mem A X Y S L P f 0x0d Ora t (apply Disj A (f t)) ltac:(lia) ltac:(byte) ltac:(byte) ltac:(byte) eq_refl) as (P' & Z1 & X2).
    { unfold execute, read_op, operand_value, operand_address. rewrite word_halves. eexists. split; [|reflexivity]. reflexivity. }
    pose proof (w_one 0x0d Ora Absolute 4 _ _ _ u _ _ X2 ltac:(cbn [rPC]; lia) ltac:(cbn [rPC]; byte) eq_refl) as W2. cbn [rPC] in W2.
    replace (f (L + 1)) with (low t) in W2 by (symmetry; byte). replace (f (L + 2)) with (high t) in W2 by (symmetry; byte).
    specialize (W2 ltac:(apply (unheard_read b dev port ram view Hb p); [exact Ht|exact Pt|cbn; tauto])).
    exists 1%nat, P', [u]. split; [exact W2|]. split; [exact Z1|]. cbn [In]. intuition congruence.
  - destruct B as (B0 & B1 & B2 & _).
    destruct (i_alu p mem A X Y S L P f 0x4d Eor t (apply Exclusive A (f t)) ltac:(lia) ltac:(byte) ltac:(byte) ltac:(byte) eq_refl) as (P' & Z1 & X2).
    { unfold execute, read_op, operand_value, operand_address. rewrite word_halves. eexists. split; [|reflexivity]. reflexivity. }
    pose proof (w_one 0x4d Eor Absolute 4 _ _ _ u _ _ X2 ltac:(cbn [rPC]; lia) ltac:(cbn [rPC]; byte) eq_refl) as W2. cbn [rPC] in W2.
    replace (f (L + 1)) with (low t) in W2 by (symmetry; byte). replace (f (L + 2)) with (high t) in W2 by (symmetry; byte).
    specialize (W2 ltac:(apply (unheard_read b dev port ram view Hb p); [exact Ht|exact Pt|cbn; tauto])).
    exists 1%nat, P', [u]. split; [exact W2|]. split; [exact Z1|]. cbn [In]. intuition congruence.
Qed.

Lemma asks_calm f f' e u : calm t f f' -> byte_valued f -> reads Q e -> asks f' u e = asks f u e /\ 0 <= fst (asks f u e) < 256.
Proof.
  intros C B R. apply (asks_ext dev port (t_bytes _ _ _ _ _ Hb) Q); [intros q (_ & N); apply C; exact N|intros q (U & _); exact (B q U)|exact R].
Qed.
Lemma spends_calm f f' e u : calm t f f' -> byte_valued f -> reads Q e -> spends f' u e = spends f u e.
Proof.
  intros C B R. apply (spends_ext dev port (t_bytes _ _ _ _ _ Hb) Q); [intros q (_ & N); apply C; exact N|intros q (U & _); exact (B q U)|exact R].
Qed.
Lemma meets_calm f f' e u x : calm t f f' -> byte_valued f -> reads Q e -> meets f' u e x <-> meets f u e x.
Proof.
  intros C B R. apply (meets_ext dev port (t_bytes _ _ _ _ _ Hb) Q); [intros q (_ & N); apply C; exact N|intros q (U & _); exact (B q U)|exact R].
Qed.
Lemma calm_refl f : calm t f f.
Proof. intros q _. reflexivity. Qed.

Lemma expr_walks e : forall L f u, intact lo hi text f -> byte_valued f -> bytes_from text L (code t e) -> lo <= L -> L + len (code t e) <= hi ->
  reads Q e -> depth e <= 256 -> forall A X Y S P, 0 <= S < 256 -> exists k n X' P' f' l, (1 <= k /\ n = spends f u e)%nat /\
    go k n (mkRegs A X Y S L P) f u (mkRegs (fst (asks f u e)) X' Y S (L + len (code t e)) P') f' (snd (asks f u e)) l /\
    ps_zero P' = (fst (asks f u e) =? 0) /\ (forall q, q <> t -> ~ below S (depth e) q -> f' q = f q) /\ byte_valued f' /\
    (forall x, In x (l ++ [snd (asks f u e)]) <-> meets f u e x).
Proof.
  induction e as [k|v|a i IH|e IH|e IH|o e1 IH1 e2 IH2]; intros L f u Hi By B H0 H1 R Dp A X Y S P HS; cbn [code] in *.
  - unfold len in *. cbn [length] in *. destruct B as (B0 & B1 & _).
    pose proof (i_lda_imm p mem A X Y S L P f k ltac:(lia) ltac:(byte) ltac:(byte)) as X1.
    pose proof (w_one 0xa9 Lda Immediate 2 _ _ _ u _ _ X1 ltac:(cbn [rPC]; lia) ltac:(cbn [rPC]; byte) eq_refl ltac:(still)) as W1.
    exists 1%nat, 2%nat, X, (nzf P k), f, [u]. split; [cbn [SpecTalk.spends]; lia|]. split; [exact W1|].
    split; [reflexivity|]. split; [reflexivity|]. split; [exact By|]. cbn. intuition congruence.
  - unfold len in *. cbn [length] in *. destruct B as (B0 & B1 & B2 & _). destruct R as [Uv Nv].
    pose proof (w_lda b dev port ram view Hb p rep lo hi Hlo Hhi Hport A X Y S L P f u v ltac:(lia) ltac:(lia) ltac:(byte) ltac:(byte) ltac:(byte) Uv) as W1.
    exists 1%nat, 4%nat, X, (nzf P (fst (look dev port f u v))), f, [u]. split; [cbn [SpecTalk.spends]; lia|]. split; [exact W1|].
    split; [reflexivity|]. split; [reflexivity|]. split; [exact By|]. cbn. intuition congruence.
  - destruct R as [R1 R2]. apply bytes_from_app in B. fold (len (code t i)) in B. destruct B as [Bi (B0 & B1 & B2 & B3 & _)]. rewrite len_app in *. change (len [_; _; _; _]) with 4 in *.
    pose proof (len_nonneg (code t i)) as Hl.
    destruct (IH L f u Hi By Bi ltac:(lia) ltac:(lia) R2 Dp A X Y S P HS) as (k & n & X' & P' & f' & l' & Hk & G & _ & Fr & By' & Hm).
    pose proof (quietly _ _ _ _ Fr) as Ca. pose proof (calm_text _ _ Ca Hi) as Hi'.
    destruct (asks_calm f f' i u Ca By R2) as [_ Vb]. cbn [SpecTalk.asks SpecTalk.spends SpecTalk.meets]. set (v := fst (asks f u i)) in *. set (u1 := snd (asks f u i)) in *.
    replace (let '(x, u0) := asks f u i in look dev port f u0 (a + x)) with (look dev port f u1 (a + v)) by (unfold u1, v; destruct (asks f u i); reflexivity).
    set (l := len (code t i)) in *.
    pose proof (R1 v Vb) as Qv. destruct Qv as [Uv Nv].
    pose proof (i_tax p mem v X' Y S (L + l) P' f' ltac:(lia) ltac:(byte)) as X1.
    pose proof (w_one 0xaa Tax Implied 2 _ _ _ u1 _ _ X1 ltac:(cbn [rPC]; lia) ltac:(cbn [rPC]; byte) eq_refl ltac:(still)) as W1.
    pose proof (w_lda_x b dev port ram view Hb p rep lo hi Hlo Hhi Hport v v Y S (L + l + 1) (nzf P' v) f' u1 a ltac:(lia) ltac:(lia) ltac:(byte) ltac:(byte) ltac:(byte) Uv) as W2.
    replace (look dev port f' u1 (a + v)) with (look dev port f u1 (a + v)) in W2 by (unfold look; rewrite (Ca _ Nv); reflexivity).
    exists (k + (1 + 1))%nat, (n + (2 + (if ((a + v) / 256 =? a / 256)%Z then 4 else 5)))%nat, v. eexists _, f', (l' ++ [u1] ++ [u1]). split; [lia|]. split.
    { replace (L + (l + 4)) with (L + l + 1 + 3) by lia. exact (join _ _ _ _ _ _ _ _ _ G _ _ _ _ _ _ (join _ _ _ _ _ _ _ _ _ W1 _ _ _ _ _ _ W2)). }
    split; [reflexivity|]. split; [exact Fr|]. split; [exact By'|]. intros x. specialize (Hm x). rewrite !in_app_iff in *. cbn [In] in *. intuition congruence.
  - apply bytes_from_app in B. fold (len (code t e)) in B. destruct B as [Bi (B0 & _)]. rewrite len_app in *. change (len [_]) with 1 in *.
    pose proof (len_nonneg (code t e)) as Hl.
    destruct (IH L f u Hi By Bi ltac:(lia) ltac:(lia) R Dp A X Y S P HS) as (k & n & X' & P' & f' & l' & Hk & G & _ & Fr & By' & Hm).
    pose proof (quietly _ _ _ _ Fr) as Ca. pose proof (calm_text _ _ Ca Hi) as Hi'. cbn [SpecTalk.asks SpecTalk.spends SpecTalk.meets].
    set (v := fst (asks f u e)) in *. set (u1 := snd (asks f u e)) in *.
    replace (let '(x, u0) := asks f u e in ((2 * x) mod 256, u0)) with ((2 * v) mod 256, u1) by (unfold u1, v; destruct (asks f u e); reflexivity). cbn [fst snd].
    destruct (i_asl_a p mem v X' Y S (L + len (code t e)) P' f' ltac:(lia) ltac:(byte)) as (P2 & Z1 & X1).
    pose proof (w_one 0x0a Asl Accumulator 2 _ _ _ u1 _ _ X1 ltac:(cbn [rPC]; lia) ltac:(cbn [rPC]; byte) eq_refl ltac:(still)) as W1.
    exists (k + 1)%nat, (n + 2)%nat, X', P2, f', (l' ++ [u1]). split; [lia|]. split.
    { replace (L + (len (code t e) + 1)) with (L + len (code t e) + 1) by lia. exact (join _ _ _ _ _ _ _ _ _ G _ _ _ _ _ _ W1). }
    split; [exact Z1|]. split; [exact Fr|]. split; [exact By'|]. intros x. specialize (Hm x). rewrite !in_app_iff in *. cbn [In] in *. intuition congruence.
  - apply bytes_from_app in B. fold (len (code t e)) in B. destruct B as [Bi (B0 & _)]. rewrite len_app in *. change (len [_]) with 1 in *.
    pose proof (len_nonneg (code t e)) as Hl.
    destruct (IH L f u Hi By Bi ltac:(lia) ltac:(lia) R Dp A X Y S P HS) as (k & n & X' & P' & f' & l' & Hk & G & _ & Fr & By' & Hm).
    pose proof (quietly _ _ _ _ Fr) as Ca. pose proof (calm_text _ _ Ca Hi) as Hi'. cbn [SpecTalk.asks SpecTalk.spends SpecTalk.meets].
    set (v := fst (asks f u e)) in *. set (u1 := snd (asks f u e)) in *.
    replace (let '(x, u0) := asks f u e in (x / 2, u0)) with (v / 2, u1) by (unfold u1, v; destruct (asks f u e); reflexivity). cbn [fst snd].
    destruct (i_lsr_a p mem v X' Y S (L + len (code t e)) P' f' ltac:(lia) ltac:(byte)) as (P2 & Z1 & X1).
    pose proof (w_one 0x4a Lsr Accumulator 2 _ _ _ u1 _ _ X1 ltac:(cbn [rPC]; lia) ltac:(cbn [rPC]; byte) eq_refl ltac:(still)) as W1.
    exists (k + 1)%nat, (n + 2)%nat, X', P2, f', (l' ++ [u1]). split; [lia|]. split.
    { replace (L + (len (code t e) + 1)) with (L + len (code t e) + 1) by lia. exact (join _ _ _ _ _ _ _ _ _ G _ _ _ _ _ _ W1). }
    split; [exact Z1|]. split; [exact Fr|]. split; [exact By'|]. intros x. specialize (Hm x). rewrite !in_app_iff in *. cbn [In] in *. intuition congruence.
  - destruct R as [R1 R2]. cbn [depth] in *. pose proof (depth_nonneg e1) as D1. pose proof (depth_nonneg e2) as D2.
    apply bytes_from_app in B. destruct B as [Ba B]. apply bytes_from_app in B. destruct B as [(B0 & _) B].
    apply bytes_from_app in B. destruct B as [Bb B]. apply bytes_from_app in B. destruct B as [(B1 & B2 & B3 & B4 & _) Bo].
    rewrite !len_app in *. change (len [_; _; _; _]) with 4 in *. change (len [_]) with 1 in *.
    cbn [length] in Bb, B1, B2, B3, B4, Bo. fold (len (code t e1)) in *. fold (len (code t e2)) in *.
    pose proof (len_nonneg (code t e1)) as Hl1. pose proof (len_nonneg (code t e2)) as Hl2. pose proof (len_nonneg (op_code o t)) as Hl3.
    set (l1 := len (code t e1)) in *. set (l2 := len (code t e2)) in *.
    replace (L + l1 + Z.of_nat 1) with (L + l1 + 1) in * by lia.
    destruct (IH1 L f u Hi By Ba ltac:(lia) ltac:(lia) R1 ltac:(lia) A X Y S P HS) as (k1 & n1 & X1 & P1 & f1 & w1 & Hk1 & G1 & _ & Fr1 & By1 & Hm1).
    fold l1 in G1.
    pose proof (quietly _ _ _ _ Fr1) as Ca1. pose proof (calm_text _ _ Ca1 Hi) as Hi1.
    destruct (asks_calm f f1 e1 u Ca1 By R1) as [_ Vb1]. cbn [SpecTalk.asks SpecTalk.spends SpecTalk.meets]. set (v1 := fst (asks f u e1)) in *. set (u1 := snd (asks f u e1)) in *.
    pose proof (stack_mem S) as Rs.
    pose proof (i_pha p mem v1 X1 Y S (L + l1) P1 f1 ltac:(lia) ltac:(byte) Rs) as I1.
    pose proof (w_one 0x48 Pha Implied 3 _ _ _ u1 _ _ I1 ltac:(cbn [rPC]; lia) ltac:(cbn [rPC]; byte) eq_refl ltac:(still)) as W1.
    set (f2 := store1 f1 (stack S, v1)) in *.
    pose proof (calm_store t f1 (stack S) v1 (stack_scratch mem t lo hi text Hs S)) as Ca2. fold f2 in Ca2.
    pose proof (calm_text _ _ Ca2 Hi1) as Hi2. pose proof (bytes_store f1 (stack S) v1 By1 Vb1) as By2. fold f2 in By2.
    destruct (IH2 (L + l1 + 1) f2 u1 Hi2 By2 Bb ltac:(lia) ltac:(lia) R2 ltac:(lia) v1 X1 Y ((S - 1) mod 256) P1 ltac:(lia))
      as (k2 & n2 & X2 & P2 & f3 & w2 & Hk2 & G2 & _ & Fr3 & By3 & Hm2).
    fold l2 in G2. pose proof (quietly _ _ _ _ Fr3) as Ca3. pose proof (calm_text _ _ Ca3 Hi2) as Hi3.
    pose proof (calm_trans t _ _ _ Ca1 Ca2) as Ca12.
    destruct (asks_calm f f2 e2 u1 Ca12 By R2) as [Ev2 Vb2]. rewrite Ev2 in G2, Hm2. set (v2 := fst (asks f u1 e2)) in *. set (u2 := snd (asks f u1 e2)) in *.
    replace (let '(x, u0) := asks f u e1 in let '(y, u3) := asks f u0 e2 in (apply o x y, u3)) with (apply o v1 v2, u2)
      by (unfold u2, v2, u1, v1; destruct (asks f u e1); cbn [fst snd]; destruct (asks f _ e2); reflexivity). cbn [fst snd].
    destruct (Hs t ltac:(left; reflexivity)) as (Ut & Rt & _).
    pose proof (i_sta p mem v2 X2 Y ((S - 1) mod 256) (L + l1 + 1 + l2) P2 f3 t ltac:(lia) ltac:(byte) ltac:(byte) ltac:(byte) Rt) as I2.
    pose proof (w_one 0x8d Sta Absolute 4 _ _ _ u2 _ _ I2 ltac:(cbn [rPC]; lia) ltac:(cbn [rPC]; byte) eq_refl ltac:(still)) as W2.
    set (f4 := store1 f3 (t, v2)) in *.
    pose proof (calm_store t f3 t v2 ltac:(left; reflexivity)) as Ca4. fold f4 in Ca4.
    pose proof (calm_text _ _ Ca4 Hi3) as Hi4. pose proof (bytes_store f3 t v2 By3 Vb2) as By4. fold f4 in By4.
    pose proof (i_pla p mem v2 X2 Y ((S - 1) mod 256) (L + l1 + 1 + l2 + 3) P2 f4 ltac:(lia) ltac:(byte)) as I3. cbv zeta in I3.
    pose proof (w_one 0x68 Pla Implied 4 _ _ _ u2 _ _ I3 ltac:(cbn [rPC]; lia) ltac:(cbn [rPC]; byte) eq_refl (unheard_pla b dev port ram view Hb p _ _ _ _ _ _ (stack_port _))) as W3.
    replace (((S - 1) mod 256 + 1) mod 256) with S in W3 by lia.
    replace (stack ((S - 1) mod 256 + 1)) with (stack S) in W3 by (unfold stack; lia).
    assert (Et : stack S <> t) by (intros E; apply Ht1; rewrite <- E; unfold stack, page_one; lia).
    assert (Es : f4 (stack S) = v1).
    { unfold f4. rewrite store1_other by exact Et. rewrite Fr3; [apply store1_same|exact Et|].
      intros (j & Hj & E). unfold stack in E. lia. }
    rewrite Es in W3.
    assert (E4 : f4 t = v2) by apply store1_same.
    destruct (op_walks o v1 X2 Y S (L + l1 + 1 + l2 + 3 + 1) (nzf P2 v1) f4 u2 Hi4) as (k5 & P5 & w5 & G5 & Z5 & Hw5);
      [replace (L + l1 + 1 + l2 + 3 + 1) with (L + l1 + 1 + l2 + Z.of_nat 4) by lia; exact Bo|lia|lia|exact Vb1|].
    rewrite E4 in G5, Z5.
    pose proof (spends_calm f f2 e2 u1 Ca12 By R2) as Tm.
    exists (k1 + (1 + (k2 + (1 + (1 + k5)))))%nat, (n1 + (3 + (n2 + (4 + (4 + op_time o)))))%nat, X2, P5, f4, (w1 ++ [u1] ++ w2 ++ [u2] ++ [u2] ++ w5). split; [lia|]. split.
    { replace (L + (l1 + (1 + (l2 + (4 + len (op_code o t)))))) with (L + l1 + 1 + l2 + 3 + 1 + len (op_code o t)) by lia.
      exact (join _ _ _ _ _ _ _ _ _ G1 _ _ _ _ _ _ (join _ _ _ _ _ _ _ _ _ W1 _ _ _ _ _ _ (join _ _ _ _ _ _ _ _ _ G2 _ _ _ _ _ _
        (join _ _ _ _ _ _ _ _ _ W2 _ _ _ _ _ _ (join _ _ _ _ _ _ _ _ _ W3 _ _ _ _ _ _ G5))))). }
    split; [exact Z5|]. split; [|split; [exact By4|]].
    + intros q Hq Nq. unfold f4. rewrite store1_other by exact Hq. rewrite Fr3; [|exact Hq|].
      * unfold f2. rewrite store1_other.
        -- apply Fr1; [exact Hq|]. intros (j & Hj & E). apply Nq. exists j. split; [lia|exact E].
        -- intros ->. apply Nq. exists 0. split; [lia|]. f_equal. lia.
      * intros (j & Hj & ->). apply Nq. exists (j + 1). split; [lia|]. unfold stack. lia.
    + intros x. specialize (Hm1 x). specialize (Hm2 x). specialize (Hw5 x). rewrite (meets_calm f f2 e2 u1 x Ca12 By R2) in Hm2.
      rewrite <- Hm1, <- Hm2. rewrite !in_app_iff in *. cbn [In] in *. intuition congruence.
Qed.
End Language.
