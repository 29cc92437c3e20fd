(** C83: code without absolute jumps and calls does the same wherever it lies. *)
From Verif Require Import Base Arith ModelMap ModelStep ModelRegs6502 ModelCpu6502 ModelOperand ModelIsa6502
  ModelRun6502 ModelIo ModelBus SpecMap Link6502 ProofRun6502 ProofBus ProofBusStep ProofBusRun ProofBusMap ProofBusLog PropertiesBus Demo6502.
From Verif Require Import Spec6502 SpecBus SpecProgram SpecTouch PropertiesTouch SpecMove.

(** ** Computations that see a bus only through its answers *)
Definition honest {A} (x : forall S, bus S -> S -> res (A * S)) : Prop :=
  forall S (b : bus S) s l a s' l', x _ (watched b) (s, l) = Ok (a, (s', l')) ->
    exists acc, l' = l ++ acc /\ forall S2 (b2 : bus S2) t t', follows b2 t acc t' -> x _ b2 t = Ok (a, t').

Lemma honest_done {A} (a : A) : honest (fun S b => done a).
Proof.
  intros S b s l x s' l' E. unfold done in E. injection E as <- <- <-. exists []. rewrite app_nil_r.
  split; [reflexivity|]. intros S2 b2 t t' F. inversion F; subst. reflexivity.
Qed.
Lemma honest_stop {A} : honest (fun S b => @stop S A).
Proof. intros S b s l x s' l' E. discriminate. Qed.
Lemma honest_given {A} (o : option A) : honest (fun S b => given o).
Proof. destruct o; [apply honest_done|apply honest_stop]. Qed.
Lemma honest_ask a : honest (fun S b => ask b a).
Proof.
  intros S b s l x s' l' E. unfold ask in E. cbn [watched b_read] in E.
  destruct (b_read b s a) as [[v s1]|]; [|discriminate]. injection E as <- <- <-. exists [Rd a v].
  split; [reflexivity|]. intros S2 b2 t t' F. inversion F as [|t0 a0 v0 t1 l0 t2 R F1|]; subst. inversion F1; subst. exact R.
Qed.
Lemma follows_split {S} (b : bus S) l1 : forall s l2 s2, follows b s (l1 ++ l2) s2 ->
  exists s1, follows b s l1 s1 /\ follows b s1 l2 s2.
Proof.
  induction l1 as [|x l1 IH]; intros s l2 s2 F; cbn [app] in F.
  - exists s. split; [constructor|exact F].
  - inversion F as [|t0 a0 v0 t1 l0 t2 Hw Hf|t0 a0 v0 t1 l0 t2 Hw Hf]; subst;
      destruct (IH _ _ _ Hf) as (t3 & A & B); exists t3; (split; [econstructor; eassumption|exact B]).
Qed.
Lemma honest_after {A B} (x : forall S, bus S -> S -> res (A * S)) (f : A -> forall S, bus S -> S -> res (B * S)) :
  honest x -> (forall a, honest (f a)) -> honest (fun S b => after (x S b) (fun a => f a S b)).
Proof.
  intros Hx Hf S b s l c s' l' E. unfold after in E. destruct (x _ (watched b) (s, l)) as [[a [s1 l1]]|] eqn:Ex; [|discriminate].
  destruct (Hx _ _ _ _ _ _ _ Ex) as (acc1 & -> & G1). destruct (Hf a _ _ _ _ _ _ _ E) as (acc2 & -> & G2).
  exists (acc1 ++ acc2). rewrite app_assoc. split; [reflexivity|]. intros S2 b2 t t' F.
  apply follows_split in F. destruct F as (t1 & F1 & F2). unfold after. rewrite (G1 _ _ _ _ F1). apply G2, F2.
Qed.

Ltac honest_tac := cbv beta; match goal with
  | |- honest (fun S b => done _) => apply honest_done
  | |- honest (fun S b => stop) => apply honest_stop
  | |- honest (fun S b => given _) => apply honest_given
  | |- honest (fun S b => ask b _) => apply honest_ask
  | |- honest (fun S b => after (@?x S b) (@?f S b)) =>
      apply (honest_after x (fun a S b => f S b a)); [honest_tac|intros ?; honest_tac]
  end.

Lemma honest_address p m r b1 b2 : honest (fun S b => bus_address b p m r b1 b2).
Proof. destruct m; cbn [bus_address]; honest_tac. Qed.

Lemma honest_read p m r b1 b2 c f : honest (fun S b => bus_read_op b p m r b1 b2 c f).
Proof.
  assert (H : honest (fun S b => after (bus_address b p m r b1 b2) (fun a => after (ask b a)
    (fun v => done (mkEffect (advance m (f r v)) [] (c + read_penalty m b1 b2 a)))))).
  { apply (honest_after (fun S b => bus_address b p m r b1 b2) (fun a S b => after (ask b a)
    (fun v => done (mkEffect (advance m (f r v)) [] (c + read_penalty m b1 b2 a))))); [apply honest_address|intros a; honest_tac]. }
  destruct m; try exact H. apply honest_done.
Qed.
Lemma honest_store p m r b1 b2 c v : honest (fun S b => bus_store_op b p m r b1 b2 c v).
Proof.
  apply (honest_after (fun S b => bus_address b p m r b1 b2) (fun a S b => done (mkEffect (advance m r) [(a, v)] c)));
    [apply honest_address|intros a; honest_tac].
Qed.
Lemma honest_modify p m r b1 b2 c f : honest (fun S b => bus_modify_op b p m r b1 b2 c f).
Proof.
  assert (H : honest (fun S b => after (bus_address b p m r b1 b2) (fun a => after (ask b a)
    (fun old => let '(v, r') := f r old in done (mkEffect (advance m r') [(a, v)] c))))).
  { apply (honest_after (fun S b => bus_address b p m r b1 b2) (fun a S b => after (ask b a)
    (fun old => let '(v, r') := f r old in done (mkEffect (advance m r') [(a, v)] c)))); [apply honest_address|intros a].
    apply (honest_after (fun S b => ask b a) (fun old S b => let '(v, r') := f r old in done (mkEffect (advance m r') [(a, v)] c)));
      [apply honest_ask|intros old; destruct (f r old); apply honest_done]. }
  destruct m; try exact H. cbn [bus_modify_op]. destruct (f r (rA r)). apply honest_done.
Qed.

Lemma honest_execute p mn m c r b1 b2 : honest (fun S b => bus_execute b p mn m c r b1 b2).
Proof.
  destruct mn; cbn [bus_execute]; first [apply honest_read|apply honest_store|apply honest_modify|idtac];
    try honest_tac.
  destruct m; honest_tac.
Qed.

(** ** Executing at another place *)
Definition movable_mnemonic (mn : mnemonic) : bool :=
  match mn with Brk | Jsr | Rti | Jmp | Rts => false | _ => true end.

Lemma movable_decode b0 mn m c : decode b0 = Some (mn, m, c) -> movable b0 -> movable_mnemonic mn = true.
Proof.
  intros Hd Hm. unfold decode in Hd.
  destruct (find (fun row => fst row =? b0) opcode_table) as [[o d]|] eqn:Ef; [|discriminate].
  apply find_some in Ef. destruct Ef as [Hin He]. cbn [fst] in He. apply Z.eqb_eq in He. subst o.
  assert (d = (mn, m, c)) by congruence. subst d. clear Hd.
  assert (K : Forall (fun row => existsb (Z.eqb (fst row)) [0x00; 0x20; 0x40; 0x4c; 0x60; 0x6c]
    || movable_mnemonic (fst (fst (snd row))) = true) opcode_table) by (repeat constructor).
  rewrite Forall_forall in K. specialize (K _ Hin). cbn [fst snd] in K. apply Bool.orb_true_iff in K.
  destruct K as [K|K]; [|exact K]. exfalso. apply Hm. apply existsb_exists in K. destruct K as (x & Hx & E).
  apply Z.eqb_eq in E. subst x. exact Hx.
Qed.

Definition moved (d : Z) (e e' : effect) : Prop :=
  e_regs e' = shift d (e_regs e) /\ e_stores e' = e_stores e /\
  (d mod 256 = 0 -> e_cycles e' = e_cycles e) /\ (e_cycles e <= e_cycles e' + 1 /\ e_cycles e' <= e_cycles e + 1)%nat.

Definition both {A S} (R : A -> A -> Prop) (x y : S -> res (A * S)) : Prop :=
  forall s, match x s, y s with
  | Ok (a, s1), Ok (b, s2) => R a b /\ s1 = s2
  | Panic, Panic => True
  | _, _ => False
  end.
Lemma both_done {A S} (R : A -> A -> Prop) a b : R a b -> @both A S R (done a) (done b).
Proof. intros H s. cbn. auto. Qed.
Lemma both_after {A B S} (R : B -> B -> Prop) (x : S -> res (A * S)) f g :
  (forall a, both R (f a) (g a)) -> both R (after x f) (after x g).
Proof. intros H s. unfold after. destruct (x s) as [[a s1]|]; [apply H|exact I]. Qed.

Lemma address_shift {S} (b : bus S) p m d r b1 b2 : bus_address b p m (shift d r) b1 b2 = bus_address b p m r b1 b2.
Proof. destruct m; reflexivity. Qed.

Lemma advance_shift m d r : advance m (shift d r) = shift d (advance m r).
Proof.
  destruct r as [A X Y S PC P]. unfold advance, shift, withPC. cbn [rPC rA rX rY rS rP]. f_equal.
  rewrite !Zplus_mod_idemp_l. f_equal. lia.
Qed.

Lemma moved_advance d m r c : moved d (mkEffect (advance m r) [] c) (mkEffect (advance m (shift d r)) [] c).
Proof. unfold moved. cbn [e_regs e_stores e_cycles]. rewrite advance_shift. repeat split; lia. Qed.

Definition byte_update (f : registers -> Z -> registers) : Prop := forall d r v, f (shift d r) v = shift d (f r v).
Definition byte_modify (f : registers -> Z -> Z * registers) : Prop :=
  forall d r v, f (shift d r) v = (fst (f r v), shift d (snd (f r v))).

Section Shift.
Context {S : Type} (b : bus S) (p : profile) (d : Z).

Lemma read_shift m r b1 b2 c f : byte_update f ->
  both (moved d) (bus_read_op b p m r b1 b2 c f) (bus_read_op b p m (shift d r) b1 b2 c f).
Proof.
  intros Hf. unfold bus_read_op. rewrite address_shift.
  destruct m; first [apply both_done; rewrite Hf; apply moved_advance
    | apply both_after; intros a; apply both_after; intros v; apply both_done; rewrite Hf; apply moved_advance].
Qed.
Lemma store_shift m r b1 b2 c v :
  both (moved d) (bus_store_op b p m r b1 b2 c v) (bus_store_op b p m (shift d r) b1 b2 c v).
Proof.
  unfold bus_store_op. rewrite address_shift. apply both_after. intros a. apply both_done.
  unfold moved. cbn [e_regs e_stores e_cycles]. rewrite advance_shift. repeat split; lia.
Qed.
Lemma modify_shift m r b1 b2 c f : byte_modify f ->
  both (moved d) (bus_modify_op b p m r b1 b2 c f) (bus_modify_op b p m (shift d r) b1 b2 c f).
Proof.
  intros Hf. unfold bus_modify_op. rewrite address_shift.
  destruct m; first
   [ apply both_after; intros a; apply both_after; intros v; rewrite Hf; destruct (f r v) as [x r']; cbn [fst snd];
     apply both_done; unfold moved; cbn [e_regs e_stores e_cycles]; rewrite advance_shift; repeat split; lia
   | rewrite Hf; change (rA (shift d r)) with (rA r); destruct (f r (rA r)) as [x r']; cbn [fst snd]; apply both_done;
     change (withA (shift d r') x) with (shift d (withA r' x)); apply moved_advance ].
Qed.
Lemma page_of a : a mod 65536 / 256 = (a / 256) mod 256.
Proof. lia. Qed.
Lemma branch_shift cond r b1 c : u16 (rPC r) ->
  both (moved d) (@given S _ (branch_op cond r b1 c)) (given (branch_op cond (shift d r) b1 c)).
Proof.
  intros Hr. unfold branch_op. destruct cond; cbn [given]; apply both_done; [|apply moved_advance].
  destruct r as [A X Y T PC P]. unfold moved, shift, withPC. cbn [e_regs e_stores e_cycles rPC rA rX rY rS rP] in *.
  split; [f_equal; rewrite !Zplus_mod_idemp_l; f_equal; lia|]. split; [reflexivity|].
  generalize (signed b1). intros z. split.
  - intros Hd. f_equal. rewrite Zplus_mod_idemp_l, !page_of.
    assert (E : exists k, d = k * 256) by (exists (d / 256); lia). destruct E as (k & ->).
    replace (PC + k * 256 + z) with (PC + z + k * 256) by lia. rewrite !Z.div_add by lia.
    unfold u16 in Hr. assert (H : 0 <= PC / 256 < 256) by lia. clear Hr Hd.
    generalize dependent (PC / 256). intros h H. generalize ((PC + z) / 256). intros g.
    replace ((g + k) mod 256 =? (h + k) mod 256) with (g mod 256 =? h); [reflexivity|].
    destruct (g mod 256 =? h) eqn:E1, ((g + k) mod 256 =? (h + k) mod 256) eqn:E2; try reflexivity; lia.
  - destruct (_ =? _), (_ =? _); lia.
Qed.

Lemma execute_shift mn m c r b1 b2 : movable_mnemonic mn = true -> u16 (rPC r) ->
  both (moved d) (bus_execute b p mn m c r b1 b2) (bus_execute b p mn m c (shift d r) b1 b2).
Proof.
  intros Hm Hr.
  destruct mn; try discriminate Hm; cbn [bus_execute execute];
    first [ apply read_shift; intros d' r' v; reflexivity
          | apply store_shift
          | apply modify_shift; intros d' r' v; reflexivity
          | apply (branch_shift _ _ _ _ Hr)
          | apply both_done; apply moved_advance
          | apply both_after; intros v; apply both_done; apply (moved_advance d Implied)
          | idtac ].
  all: cbn [given]; apply both_done; unfold moved; cbn [e_regs e_stores e_cycles];
    change (withS (shift d r) ((rS (shift d r) - 1) mod 256)) with (shift d (withS r ((rS r - 1) mod 256)));
    rewrite advance_shift; repeat split; lia.
Qed.
End Shift.

(** ** Taking an instruction apart and putting it together *)
Lemma step_apart {S} (b : bus S) p r s n r' s' l' : 0 <= rPC r -> rPC r + 2 <= 0xffff ->
  bus_step (watched b) p r (s, []) = Ok ((n, r'), (s', l')) ->
  exists b0 b1 b2 mn m c s3 e s4 l4, decode b0 = Some (mn, m, c) /\
    bus_execute (watched b) p mn m c r b1 b2 (s3, [Rd (rPC r) b0; Rd (rPC r + 1) b1; Rd (rPC r + 2) b2]) = Ok (e, (s4, l4)) /\
    l' = l4 ++ wrs (e_stores e) /\ n = e_cycles e /\ r' = e_regs e.
Proof.
  intros Hp0 Hp. unfold bus_step, bus_effect, bus_fetch, unchecked, after, ask.
  replace (rPC r + 1 <? 65536) with true by lia. replace (rPC r + 2 <? 65536) with true by lia.
  unfold given, done. cbn [watched b_read].
  destruct (b_read b s (rPC r)) as [[b0 s1]|]; [|discriminate]. cbn [watched b_read].
  destruct (b_read b s1 (rPC r + 1)) as [[b1 s2]|]; [|discriminate]. cbn [watched b_read].
  destruct (b_read b s2 (rPC r + 2)) as [[b2 s3]|]; [|discriminate]. cbn [app].
  destruct (decode b0) as [[[mn m] c]|] eqn:Hd; [|discriminate].
  destruct (bus_execute _ _ _ _ _ _ _ _ _) as [[e [s4 l4]]|] eqn:Ee; [|discriminate].
  destruct (bus_store_all (watched b) (e_stores e) (s4, l4)) as [[u [s5 l5]]|] eqn:Es; [|discriminate].
  intros E. assert (l5 = l') by congruence. subst l5.
  apply store_log in Es. exists b0, b1, b2, mn, m, c, s3, e, s4, l4. repeat split; congruence || assumption.
Qed.

Lemma step_join {S} (b : bus S) p r t t1 t2 t3 t4 t' b0 b1 b2 mn m c e : rPC r + 2 <= 0xffff ->
  b_read b t (rPC r) = Ok (b0, t1) -> b_read b t1 (rPC r + 1) = Ok (b1, t2) -> b_read b t2 (rPC r + 2) = Ok (b2, t3) ->
  decode b0 = Some (mn, m, c) -> bus_execute b p mn m c r b1 b2 t3 = Ok (e, t4) ->
  bus_store_all b (e_stores e) t4 = Ok (tt, t') ->
  bus_step b p r t = Ok ((e_cycles e, e_regs e), t').
Proof.
  intros Hp R0 R1 R2 Hd He Hs. unfold bus_step, bus_effect, bus_fetch, unchecked, after, ask.
  replace (rPC r + 1 <? 65536) with true by lia. replace (rPC r + 2 <? 65536) with true by lia. unfold given, done.
  rewrite R0, R1, R2, Hd, He, Hs. reflexivity.
Qed.

Lemma regs_ok_shift d r : regs_ok r -> regs_ok (shift d r).
Proof.
  unfold shift, withPC, regs_ok. cbn [rA rX rY rS rPC rP]. intros (H1 & H2 & H3 & H4 & _).
  split; [exact H1|]. split; [exact H2|]. split; [exact H3|]. split; [exact H4|].
  unfold u16. pose proof (Z.mod_pos_bound (rPC r + d) 65536 ltac:(lia)). lia.
Qed.

(** ** C83 *)
(** One instruction on any two buses: executed [d] bytes further on, with the
    same answers, it makes the same accesses but for the places of its own
    bytes, and leaves the same registers but for the program counter. The time
    is the same if [d] is a multiple of the page size, and differs by at most
    one cycle (of a branch to another page) otherwise. *)
Theorem C83_one_instruction : forall S (b : bus S) S2 (b' : bus S2) p (cpu cpu2 : core) d
    s mops cpu' s' b0 b1 b2 rest t t',
  let pc := reg_pc cpu in
  byte_bus b -> byte_bus b' -> regs_ok (regs_of cpu) -> regs_of cpu2 = shift d (regs_of cpu) ->
  pc + 2 <= 0xffff -> 0 <= pc + d -> pc + d + 2 <= 0xffff ->
  next_bus (watched b) p (cpu, (s, [])) =
    Ok (mops, (cpu', (s', Rd pc b0 :: Rd (pc + 1) b1 :: Rd (pc + 2) b2 :: rest))) ->
  movable b0 ->
  follows b' t (Rd (pc + d) b0 :: Rd (pc + d + 1) b1 :: Rd (pc + d + 2) b2 :: rest) t' ->
  exists mops' cpu2', next_bus b' p (cpu2, t) = Ok (mops', (cpu2', t')) /\
    regs_of cpu2' = shift d (regs_of cpu') /\
    (d mod 256 = 0 -> ops_cycles mops' = ops_cycles mops) /\
    (ops_cycles mops <= ops_cycles mops' + 1 /\ ops_cycles mops' <= ops_cycles mops + 1)%nat.
Proof.
  intros S b S2 b' p cpu cpu2 d s mops cpu' s' b0 b1 b2 rest t t' pc Hb Hb' Hr H2 P1 P2 P3 E Hm F.
  assert (Hpc : u16 (rPC (regs_of cpu))) by apply Hr.
  pose proof (C66_next_on_any_bus _ (watched b) p cpu (s, []) (watched_bytes b Hb) Hr) as A.
  rewrite E in A. cbn [bind] in A. symmetry in A.
  assert (Epc : rPC (regs_of cpu) = pc) by reflexivity.
  apply step_apart in A; [|unfold u16 in Hpc; lia|lia].
  destruct A as (x0 & x1 & x2 & mn & m & c & s3 & e & s4 & l4 & Hd & Ex & El & En & Er). rewrite Epc in *.
  destruct (honest_execute p mn m c (regs_of cpu) x1 x2 _ _ _ _ _ _ _ Ex) as (acc & -> & G). cbn [app] in El.
  assert (x0 = b0) by congruence. assert (x1 = b1) by congruence. assert (x2 = b2) by congruence. subst x0 x1 x2.
  assert (Hrest : rest = acc ++ wrs (e_stores e)) by congruence.
  inversion F as [|t0 a0 w0 t1 l0 te R0 F1|]; subst t0 a0 w0 l0 te; clear F.
  inversion F1 as [|t0 a0 w0 t2 l0 te R1 F2|]; subst t0 a0 w0 l0 te; clear F1.
  inversion F2 as [|t0 a0 w0 t3 l0 te R2 F3|]; subst t0 a0 w0 l0 te; clear F2.
  rewrite Hrest in F3. apply follows_split in F3. destruct F3 as (t4 & F4 & F5). apply store_follows in F5.
  pose proof (execute_shift b' p d mn m c (regs_of cpu) b1 b2 (movable_decode _ _ _ _ Hd Hm) Hpc t3) as K.
  rewrite (G _ _ _ _ F4) in K.
  destruct (bus_execute b' p mn m c (shift d (regs_of cpu)) b1 b2 t3) as [[e' t5]|] eqn:Ee; [|contradiction].
  destruct K as ((K1 & K2 & K3 & K4) & <-). rewrite <- K2 in F5.
  assert (Epc2 : rPC (shift d (regs_of cpu)) = pc + d).
  { unfold shift. cbn [withPC rPC]. rewrite Epc. unfold u16 in Hpc. apply Z.mod_small. lia. }
  assert (Hstep : bus_step b' p (shift d (regs_of cpu)) t = Ok ((e_cycles e', e_regs e'), t')).
  { eapply step_join; rewrite ?Epc2; eassumption. }
  pose proof (C66_next_on_any_bus _ b' p cpu2 t Hb' ltac:(rewrite H2; apply regs_ok_shift, Hr)) as B.
  rewrite H2, Hstep in B. destruct (next_bus b' p (cpu2, t)) as [[mops' [cpu2' t6]]|]; cbn [bind] in B; [|discriminate].
  assert (B1 : ops_cycles mops' = e_cycles e') by congruence. assert (B2 : regs_of cpu2' = e_regs e') by congruence.
  assert (B3 : t6 = t') by congruence. subst t6. exists mops', cpu2'. split; [reflexivity|].
  rewrite B1, B2, En, Er. auto.
Qed.

(** ** Whole runs on plain memory *)
Lemma safe_next_plain p m (cpu : core) : plain_map m -> next_bus (map_bus p) p (cpu, m) = next_bus (safe p) p (cpu, m).
Proof.
  intros Hp. rewrite (C66_watching _ (map_bus p) p cpu m []), (C66_watching _ (safe p) p cpu m []).
  rewrite (safe_next p m cpu [] Hp). reflexivity.
Qed.

Lemma follows_safe p m acc m' : follows (map_bus p) m acc m' -> plain_map m -> byte_writes acc -> follows (safe p) m acc m'.
Proof.
  induction 1 as [m|m a v m1 l m2 E F IH|m a v m1 l m2 E F IH]; intros Hp Hb.
  - constructor.
  - apply Forall_cons_iff in Hb as [_ Hb]. cbn in E. destruct (plain_read p m a Hp) as (x & Ex & Hx). rewrite Ex in E.
    cbn in E. assert (x = v) by congruence. assert (m1 = m) by congruence. subst x m1.
    eapply follows_read; [|apply IH; assumption]. cbn. rewrite Ex. unfold u8 in Hx.
    replace ((0 <=? v) && (v <? 256)) with true by lia. reflexivity.
  - apply Forall_cons_iff in Hb as [Hv Hb]. eapply follows_write; [exact E|]. apply IH; [|exact Hb].
    cbn in E. destruct (am_write p m a v) as [[mx [w|]]|] eqn:Ew; try discriminate.
    assert (Q : mx = m1) by congruence. subst mx. exact (proj1 (plain_write p m a v m1 w Hp Hv Ew)).
Qed.

Lemma read_is p m a v m' : plain_map m -> b_read (map_bus p) m a = Ok (v, m') -> m' = m /\ peek p m a = v.
Proof.
  intros Hp E. cbn in E. unfold peek. destruct (am_read p m a) as [x|]; [|discriminate]. cbn in E.
  split; congruence.
Qed.
Lemma read_does p m a : plain_map m -> b_read (map_bus p) m a = Ok (peek p m a, m).
Proof. intros Hp. destruct (plain_read p m a Hp) as (x & Ex & _). cbn. unfold peek. rewrite Ex. reflexivity. Qed.

Lemma needs_address acc a : needs acc a -> exists x, In x acc /\ address_of x = a.
Proof.
  induction acc as [|[q v|q v] l IH]; cbn [needs]; intros H; [contradiction| |].
  - destruct H as [->|H]; [exists (Rd q v); split; [left; reflexivity|reflexivity]|].
    destruct (IH H) as (x & I1 & I2). exists x. split; [right; exact I1|exact I2].
  - destruct (IH (proj2 H)) as (x & I1 & I2). exists x. split; [right; exact I1|exact I2].
Qed.

(** A run of a block of [n] bytes at [L] which consists of movable
    instructions and touches, apart from its own instructions, neither its own
    block nor the block where it is moved to.  Moved by [d], with the same
    registers and the same bytes in the rest of the memory, it makes as many
    steps, leaves the same registers (but for the place of the program
    counter) and the same memory, and moving it by whole pages does not change
    its time. *)
Theorem C83_moved_run : forall p k t (cpu1 cpu1' cpu2 : mos6502 memory) L n d,
  let data a := ~ block L n a /\ ~ block (L + d) n a in
  0 <= L -> L + Z.of_nat n <= 65536 -> 0 <= L + d -> L + d + Z.of_nat n <= 65536 ->
  plain_map (amap cpu1) -> plain_map (amap cpu2) -> regs_ok (regs_of cpu1) ->
  apart p (block L n) data k t cpu1 cpu1' ->
  regs_of cpu2 = shift d (regs_of cpu1) ->
  (forall a, block L n a -> peek p (amap cpu2) (a + d) = peek p (amap cpu1) a) ->
  (forall a, data a -> peek p (amap cpu2) a = peek p (amap cpu1) a) ->
  (forall a, data a -> ram_at (amap cpu1) a -> ram_at (amap cpu2) a) ->
  exists t' cpu2', runs p k t' cpu2 cpu2' /\
    regs_of cpu2' = shift d (regs_of cpu1') /\
    (forall a, data a -> peek p (amap cpu2') a = peek p (amap cpu1') a) /\
    (forall a, block L n a -> peek p (amap cpu1') a = peek p (amap cpu1) a /\
                              peek p (amap cpu2') (a + d) = peek p (amap cpu1) a) /\
    (d mod 256 = 0 -> t' = t) /\ (t <= t' + k /\ t' <= t + k)%nat.
Proof.
  intros p k t cpu1 cpu1' cpu2 L n d data L1 L2 L3 L4 Hp1 Hp2 Hr T E Hc Hd Hw.
  assert (K : exists t' cpu2', steps p k t' cpu2 cpu2' /\
    regs_of cpu2' = shift d (regs_of cpu1') /\
    (forall a, data a -> peek p (amap cpu2') a = peek p (amap cpu1') a) /\
    (forall a, block L n a -> peek p (amap cpu1') a = peek p (amap cpu1) a /\
                              peek p (amap cpu2') (a + d) = peek p (amap cpu1) a) /\
    (d mod 256 = 0 -> t' = t) /\ (t <= t' + k /\ t' <= t + k)%nat).
  { revert cpu2 Hp2 E Hc Hd Hw.
    induction T as [cpu1|k t cpu1 mops c m b0 b1 b2 rest cpu1' pc C0 C1 C2 Es Hm Hf T IH]; intros cpu2 Hp2 E Hc Hd Hw.
    - exists 0%nat, cpu2. split; [constructor|]. split; [exact E|]. split; [exact Hd|].
      split; [intros a Ha; split; [reflexivity|apply Hc, Ha]|]. split; [reflexivity|lia].
    - assert (T1 : traced p 1 (ops_cycles mops + 0) cpu1 ((Rd pc b0 :: Rd (pc + 1) b1 :: Rd (pc + 2) b2 :: rest) ++ [])
        (cpu_with (regs_of c) m)) by (econstructor; [exact Es|constructor]).
      rewrite app_nil_r in T1. destruct (traced_follows _ _ _ _ _ _ T1 Hp1 Hr) as [F B]. cbn [amap cpu_with] in F.
      destruct (follows_memory p _ _ _ F Hp1 B) as (Pm & Rm & Fm & Wm). cbn [finally] in Fm.
      inversion F as [|t0 a0 w0 t1 l0 te R0 F1|]; subst t0 a0 w0 l0 te; clear F.
      apply (read_is p _ _ _ _ Hp1) in R0. destruct R0 as [-> R0].
      inversion F1 as [|t0 a0 w0 t2 l0 te R1 F2|]; subst t0 a0 w0 l0 te; clear F1.
      apply (read_is p _ _ _ _ Hp1) in R1. destruct R1 as [-> R1].
      inversion F2 as [|t0 a0 w0 t3 l0 te R2 F3|]; subst t0 a0 w0 l0 te; clear F2.
      apply (read_is p _ _ _ _ Hp1) in R2. destruct R2 as [-> R2].
      assert (Br : byte_writes rest) by (unfold byte_writes in *; repeat (apply Forall_cons_iff in B; destruct B as [_ B]); exact B).
      rewrite Forall_forall in Hf.
      assert (Hn : forall a, needs rest a -> data a).
      { intros a Ha. apply needs_address in Ha. destruct Ha as (x & I1 & <-). apply (Hf x I1). }
      assert (Hwr : forall a, written rest a -> data a).
      { intros a (v & Ha). apply (Hf _ Ha). }
      destruct (follows_other p _ _ _ F3 Hp1 Br (amap cpu2) Hp2) as (m2 & F2).
      { intros a Ha. apply Hd, Hn, Ha. }
      { intros a Ha. apply Hw; [apply Hwr, Ha|]. apply Wm. destruct Ha as (v & Q). exists v. do 3 right. exact Q. }
      destruct (follows_memory p _ _ _ F2 Hp2 Br) as (Pm2 & Rm2 & Fm2 & _).
      unfold block in C0, C1, C2.
      assert (Fs : follows (map_bus p) (amap cpu2) (Rd (pc + d) b0 :: Rd (pc + d + 1) b1 :: Rd (pc + d + 2) b2 :: rest) m2).
      { eapply follows_read; [rewrite read_does by exact Hp2; rewrite (Hc pc) by exact C0; rewrite R0; reflexivity|].
        eapply follows_read.
        { rewrite read_does by exact Hp2. replace (pc + d + 1) with (pc + 1 + d) by lia. rewrite (Hc (pc + 1)) by exact C1. rewrite R1. reflexivity. }
        eapply follows_read; [|exact F2].
        rewrite read_does by exact Hp2. replace (pc + d + 2) with (pc + 2 + d) by lia. rewrite (Hc (pc + 2)) by exact C2. rewrite R2. reflexivity. }
      assert (Bs : byte_writes (Rd (pc + d) b0 :: Rd (pc + d + 1) b1 :: Rd (pc + d + 2) b2 :: rest))
        by (unfold byte_writes; repeat (apply Forall_cons; [exact I|]); exact Br).
      apply (follows_safe p _ _ _) in Fs; [|exact Hp2|exact Bs].
      rewrite (safe_next p (amap cpu1) (core_of cpu1) [] Hp1) in Es.
      destruct (C83_one_instruction _ (safe p) _ (safe p) p (core_of cpu1) (core_of cpu2) d
        (amap cpu1) mops c m b0 b1 b2 rest (amap cpu2) m2 (safe_bytes p) (safe_bytes p)) as (mops' & c2 & E2 & Er2 & Et & Eb).
      { exact Hr. } { exact E. } { change (pc + 2 <= 65535). lia. } { change (0 <= pc + d). lia. } { change (pc + d + 2 <= 65535). lia. }
      { exact Es. } { exact Hm. } { exact Fs. }
      rewrite <- (safe_next_plain p (amap cpu2) (core_of cpu2) Hp2) in E2.
      assert (O2 : observed_step p cpu2 = Ok (ops_cycles mops', cpu_with (regs_of c2) m2)).
      { unfold observed_step. rewrite C66_map_is_a_bus, E2. reflexivity. }
      assert (Hr1 : regs_ok (regs_of (cpu_with (regs_of c) m))).
      { rewrite <- (safe_next p (amap cpu1) (core_of cpu1) [] Hp1) in Es.
        assert (Ex : observed_step p cpu1 = Ok (ops_cycles mops, cpu_with (regs_of c) m)) by (apply step_traced; eauto 7).
        assert (Bs' := plain_ram_bus p (fun _ => False)).
        assert (Hi : plain_with (fun _ => False) (amap cpu1)) by (split; [exact Hp1|intros ? []]).
        exact (proj1 (proj2 (step_inv p _ _ Bs' cpu1 _ _ Hi Hr Ex))). }
      destruct (IH Pm Hr1 (cpu_with (regs_of c2) m2) Pm2) as (t' & cpu2' & S2 & J1 & J2 & J3 & J4 & J5).
      + rewrite !regs_of_cpu_with. exact Er2.
      + cbn [amap cpu_with]. intros a Ha. rewrite Fm2, Fm, !finally_unwritten; [apply Hc, Ha| |].
        * intros W. apply Hwr in W. apply (proj1 W), Ha.
        * intros W. apply Hwr in W. apply (proj2 W). unfold block in *. lia.
      + cbn [amap cpu_with]. intros a Ha. rewrite Fm2, Fm, (Hd a Ha). reflexivity.
      + cbn [amap cpu_with]. intros a Ha Hra. apply Rm2, Hw; [exact Ha|]. apply Rm, Hra.
      + exists (ops_cycles mops' + t')%nat, cpu2'. split; [eapply steps_cons; [exact O2|exact S2]|]. split; [exact J1|]. split; [exact J2|].
        split; [|split; [intros Q; rewrite (J4 Q), (Et Q); reflexivity|lia]].
        intros a Ha. destruct (J3 a Ha) as [Q1 Q2]. cbn [amap cpu_with] in Q1, Q2. rewrite Q1, Q2, Fm, finally_unwritten; [auto|].
        intros W. apply Hwr in W. apply (proj1 W), Ha. }
  destruct K as (t' & cpu2' & St & K). exists t', cpu2'. split; [|exact K]. split; [exact St|].
  apply run_ready_iff. exists k, t'. split; [exact St|]. split; [lia|left; reflexivity].
Qed.

Print Assumptions C83_one_instruction.
Print Assumptions C83_moved_run.

(** ** A concrete case *)
(** LDX #3 / loop: ADC 0x10 / DEX / BNE loop / STA 0x11, once at 0x210 and once
    at 0x310: eleven instructions. *)
Definition move_program : list Z := [0xa2; 0x03; 0x65; 0x10; 0xca; 0xd0; 0xfd; 0x85; 0x11; 0xea; 0xea].
Definition move_memory (place : nat) : list Z :=
  repeat 0 16 ++ [7] ++ repeat 0 (place - 17) ++ move_program.
Definition move_machine (place : nat) : mos6502 memory :=
  let m := machine (move_memory place) [0xea] 0 0 0 0xff ps0 in
  cpu_with (withPC (regs_of m) (Z.of_nat place)) (amap m).

Lemma move_plain place : machine_fits (move_memory place) [0xea] 0 0 0 0xff = true -> Z.of_nat place < 65536 ->
  plain_map (amap (move_machine place)) /\ regs_ok (regs_of (move_machine place)).
Proof.
  intros Hf Hl. destruct (machine_plain (move_memory place) [0xea] 0 0 0 0xff ps0 Hf) as [P R]. split; [exact P|].
  destruct R as (R1 & R2 & R3 & R4 & R5). refine (conj R1 (conj R2 (conj R3 (conj R4 _)))).
  unfold move_machine. rewrite regs_of_cpu_with. change (u16 (Z.of_nat place)). unfold u16. lia.
Qed.

(** The run by computation: each step is checked against the blocks. *)
Definition inb (start : Z) (size : nat) (a : Z) : bool := (start <=? a) && (a <? start + Z.of_nat size).
Fixpoint apart_of (p : profile) (L d : Z) (n k : nat) (cpu : mos6502 memory) : option (nat * mos6502 memory) :=
  match k with
  | O => Some (O, cpu)
  | Datatypes.S k' =>
      match next_bus (watched (map_bus p)) p (core_of cpu, (amap cpu, [])) with
      | Ok (mops, (c, (m, Rd a0 b0 :: Rd a1 b1 :: Rd a2 b2 :: rest))) =>
          let pc := reg_pc cpu in
          if (a0 =? pc) && (a1 =? pc + 1) && (a2 =? pc + 2) && inb L n pc && inb L n (pc + 1) && inb L n (pc + 2)
             && negb (existsb (Z.eqb b0) [0x00; 0x20; 0x40; 0x4c; 0x60; 0x6c])
             && forallb (fun x => negb (inb L n (address_of x)) && negb (inb (L + d) n (address_of x))) rest
          then match apart_of p L d n k' (cpu_with (regs_of c) m) with
               | Some (t, cpu') => Some ((ops_cycles mops + t)%nat, cpu')
               | None => None
               end
          else None
      | _ => None
      end
  end.
Lemma apart_of_sound p L d n k : forall cpu t cpu', apart_of p L d n k cpu = Some (t, cpu') ->
  apart p (block L n) (fun a => ~ block L n a /\ ~ block (L + d) n a) k t cpu cpu'.
Proof.
  induction k as [|k IH]; intros cpu t cpu' E; cbn [apart_of] in E.
  - assert (t = 0%nat) by congruence. assert (cpu' = cpu) by congruence. subst. constructor.
  - destruct (next_bus (watched (map_bus p)) p (core_of cpu, (amap cpu, []))) as [[mops [c [m acc]]]|] eqn:En; [|discriminate].
    destruct acc as [|[a0 b0|] [|[a1 b1|] [|[a2 b2|] rest]]]; try discriminate.
    match type of E with (if ?b then _ else _) = _ => destruct b eqn:Eb; [|discriminate] end.
    rewrite !andb_true_iff in Eb. destruct Eb as [[[[[[[B0 B1] B2] B3] B4] B5] B6] B7].
    destruct (apart_of p L d n k (cpu_with (regs_of c) m)) as [[t1 c1]|] eqn:Er; [|discriminate].
    assert (t = (ops_cycles mops + t1)%nat) by congruence. assert (cpu' = c1) by congruence. subst t cpu'.
    apply Z.eqb_eq in B0, B1, B2. subst a0 a1 a2. unfold inb in B3, B4, B5.
    eapply apart_step with (b0 := b0) (rest := rest); [unfold block; lia..|exact En| | |apply IH, Er].
    + intros Hin. apply negb_true_iff in B6. rewrite <- not_true_iff_false in B6. apply B6. apply existsb_exists.
      exists b0. split; [exact Hin|apply Z.eqb_refl].
    + apply Forall_forall. intros x Hx. rewrite forallb_forall in B7. specialize (B7 x Hx). unfold inb in B7. unfold block. lia.
Qed.

Lemma bytes_equal (P : Z -> bool) : forallb P (map Z.of_nat (seq 0 1024)) = true -> forall a, 0 <= a < 1024 -> P a = true.
Proof.
  intros E a Ha. rewrite forallb_forall in E. apply E. apply in_map_iff. exists (Z.to_nat a). split; [lia|]. apply in_seq. lia.
Qed.
Lemma no_byte p place a : a < 0 \/ 1024 <= a -> a <> 0x8000 -> peek p (amap (move_machine place)) a = 0.
Proof.
  intros Ha N. unfold peek, move_machine, machine, cpu_with. cbn [amap am_read key_contains range_lo range_hi].
  change (Z.of_nat (length [0xea])) with 1. unfold key_contains. cbn [range_lo range_hi].
  replace ((0 <=? a) && (a <=? 0x3ff)) with false by lia.
  replace ((0x8000 <=? a) && (a <=? 0x8000 + 1 - 1)) with false by lia. reflexivity.
Qed.

Example C83_moved_loop : forall p, exists t cpu1' cpu2',
  apart p (block 0x210 11) (fun a => ~ block 0x210 11 a /\ ~ block (0x210 + 0x100) 11 a) 11 t (move_machine 0x210) cpu1' /\
  runs p 11 t (move_machine 0x310) cpu2' /\ reg_pc cpu1' = 0x219 /\ reg_pc cpu2' = 0x319 /\
  peek p (amap cpu1') 0x11 = 21 /\ peek p (amap cpu2') 0x11 = 21.
Proof.
  intros p.
  assert (E : exists t cpu', apart_of p 0x210 0x100 11 11 (move_machine 0x210) = Some (t, cpu') /\
    reg_pc cpu' = 0x219 /\ peek p (amap cpu') 0x11 = 21).
  { assert (E : match apart_of p 0x210 0x100 11 11 (move_machine 0x210) with
                | Some (_, c) => (reg_pc c =? 0x219) && (peek p (amap c) 0x11 =? 21) | None => false end = true)
      by (destruct p; vm_compute; reflexivity).
    destruct (apart_of p 0x210 0x100 11 11 (move_machine 0x210)) as [[t c]|]; [|discriminate].
    exists t, c. split; [reflexivity|]. lia. }
  destruct E as (t & cpu1' & E & Epc & Ev). apply apart_of_sound in E.
  destruct (move_plain 0x210 ltac:(vm_compute; reflexivity) ltac:(vm_compute; reflexivity)) as [P1 R1].
  destruct (move_plain 0x310 ltac:(vm_compute; reflexivity) ltac:(vm_compute; reflexivity)) as [P2 R2].
  destruct (C83_moved_run p 11 t (move_machine 0x210) cpu1' (move_machine 0x310) 0x210 11 0x100) as (t' & cpu2' & S2 & J1 & J2 & _ & J4 & _);
    [lia|lia|lia|lia|exact P1|exact P2|exact R1|exact E|vm_compute; reflexivity| | | |].
  - intros a Ha. unfold block in Ha.
    assert (Q := bytes_equal (fun a => implb (inb 0x210 11 a) (peek p (amap (move_machine 0x310)) (a + 0x100) =? peek p (amap (move_machine 0x210)) a))
      ltac:(destruct p; vm_compute; reflexivity) a ltac:(lia)).
    cbv beta in Q. unfold inb in Q. replace ((0x210 <=? a) && (a <? 0x210 + Z.of_nat 11)) with true in Q by lia. cbn [implb] in Q. lia.
  - intros a Ha. unfold block in Ha.
    assert (C : 0 <= a < 1024 \/ a = 0x8000 \/ ((a < 0 \/ 1024 <= a) /\ a <> 0x8000)) by lia.
    destruct C as [C|[C|[C N]]].
    + assert (Q := bytes_equal (fun a => inb 0x210 11 a || inb 0x310 11 a || (peek p (amap (move_machine 0x310)) a =? peek p (amap (move_machine 0x210)) a))
        ltac:(destruct p; vm_compute; reflexivity) a C).
      cbv beta in Q. unfold inb in Q. lia.
    + subst a. destruct p; vm_compute; reflexivity.
    + rewrite !no_byte by assumption. reflexivity.
  - intros a _ (e & I & Hc & He). destruct I as [<-|[<-|[]]]; [|discriminate He].
    eexists. split; [left; reflexivity|]. split; [exact Hc|reflexivity].
  - exists t, cpu1', cpu2'. split; [exact E|]. rewrite (J4 eq_refl) in S2. split; [exact S2|]. split; [exact Epc|].
    split; [change (rPC (regs_of cpu2') = 0x319); rewrite J1; unfold shift; cbn [rPC withPC];
            change (rPC (regs_of cpu1')) with (reg_pc cpu1'); rewrite Epc; reflexivity|].
    split; [exact Ev|]. rewrite J2; [exact Ev|]. unfold block. lia.
Qed.
