(** Facts about SpecBus.v and the pipeline of [run] on a shared bus. *)
From Verif Require Import Arith ModelMap ModelStep ModelRegs6502 ModelCpu6502 ModelOperand ModelIsa6502
  ModelIo ModelOpsIo6502 ModelTrace ModelBus Link6502 ProofOperand ProofStep6502 ProofBus ProofBusStep.
From Verif Require Import Spec6502 SpecBus.

(** ** Registers stay in range *)
Section Range.
Context {S : Type} (b : bus S).
Hypothesis Hb : byte_bus b.
Variable p : profile.

Lemma ask_u8 a s v s' : ask b a s = Ok (v, s') -> u8 v.
Proof. exact (Hb s a v s'). Qed.

Lemma bus_address_u16 m r b1 b2 s a s' : regs_ok r -> u8 b1 -> u8 b2 ->
  bus_address b p m r b1 b2 s = Ok (a, s') -> u16 a.
Proof.
  intros (HA & HX & HY & HS & HPC) H1 H2 E.
  exact (bus_address_range b p Hb m r b1 b2 s a s' H1 H2 HX HY E).
Qed.

Lemma bus_read_op_ok m r b1 b2 c f s e s' : regs_ok r -> u8 b1 -> u8 b2 ->
  (forall v, u8 v -> regs_ok (f r v)) ->
  bus_read_op b p m r b1 b2 c f s = Ok (e, s') -> effect_ok e.
Proof.
  intros Hr H1 H2 Hf.
  assert (G : after (bus_address b p m r b1 b2) (fun a => after (ask b a) (fun v =>
      done (mkEffect (advance m (f r v)) [] (c + read_penalty m b1 b2 a)))) s = Ok (e, s') -> effect_ok e).
  { unfold after. destruct (bus_address b p m r b1 b2 s) as [[a s1]|]; [|discriminate].
    destruct (ask b a s1) as [[v s2]|] eqn:Ev; [|discriminate].
    intros [= <- <-]. split; [|constructor]. apply regs_ok_advance, Hf. exact (ask_u8 _ _ _ _ Ev). }
  destruct m; cbn [bus_read_op]; try exact G.
  intros [= <- <-]. split; [|constructor]. apply regs_ok_advance, Hf. exact H1.
Qed.

Lemma bus_store_op_ok m r b1 b2 c v s e s' : regs_ok r -> u8 b1 -> u8 b2 -> u8 v ->
  bus_store_op b p m r b1 b2 c v s = Ok (e, s') -> effect_ok e.
Proof.
  intros Hr H1 H2 Hv. unfold bus_store_op, after.
  destruct (bus_address b p m r b1 b2 s) as [[a s1]|] eqn:Ea; [|discriminate].
  intros [= <- <-]. split; [apply regs_ok_advance; exact Hr|].
  constructor; [|constructor]. split; [|exact Hv]. exact (bus_address_u16 _ _ _ _ _ _ _ Hr H1 H2 Ea).
Qed.

Lemma bus_modify_op_ok m r b1 b2 c f s e s' : regs_ok r -> u8 b1 -> u8 b2 ->
  (forall v, u8 v -> u8 (fst (f r v)) /\ regs_ok (snd (f r v))) ->
  bus_modify_op b p m r b1 b2 c f s = Ok (e, s') -> effect_ok e.
Proof.
  intros Hr H1 H2 Hf.
  assert (G : after (bus_address b p m r b1 b2) (fun a => after (ask b a) (fun old =>
      let '(v, r') := f r old in done (mkEffect (advance m r') [(a, v)] c))) s = Ok (e, s') -> effect_ok e).
  { unfold after. destruct (bus_address b p m r b1 b2 s) as [[a s1]|] eqn:Ea; [|discriminate].
    destruct (ask b a s1) as [[v s2]|] eqn:Ev; [|discriminate].
    destruct (Hf v (ask_u8 _ _ _ _ Ev)) as [F1 F2]. destruct (f r v) as [v' r'].
    intros [= <- <-]. split; [apply regs_ok_advance; exact F2|].
    constructor; [|constructor]. split; [|exact F1]. exact (bus_address_u16 _ _ _ _ _ _ _ Hr H1 H2 Ea). }
  destruct m; cbn [bus_modify_op]; try exact G.
  destruct (Hf (rA r) (proj1 Hr)) as [F1 F2]. destruct (f r (rA r)) as [v r'].
  intros [= <- <-]. split; [|constructor]. apply regs_ok_advance.
  destruct F2 as (K1 & K2 & K3 & K4 & K5). unfold regs_ok. cbn. auto.
Qed.

Lemma bus_execute_ok mn m c r b1 b2 s e s' : regs_ok r -> u8 b1 -> u8 b2 ->
  bus_execute b p mn m c r b1 b2 s = Ok (e, s') -> effect_ok e.
Proof.
  intros Hr H1 H2.
  assert (Hr' := Hr). destruct Hr' as (HA & HX & HY & HS & HPC).
  assert (X : given (execute p mn m c r (fun _ => 0) b1 b2) s = Ok (e, s') -> effect_ok e).
  { destruct (execute p mn m c r (fun _ => 0) b1 b2) as [e0|] eqn:E; [|discriminate].
    intros [= <- <-]. refine (execute_ok p mn m c r (fun _ => 0) b1 b2 e0 _ Hr H1 H2 E).
    intros a _. unfold u8. lia. }
  assert (Hbit : forall cb, 0 <= bit cb 1 <= 1 /\ 0 <= bit cb 128 <= 128) by (intros []; cbn; lia).
  assert (SM : forall f v, u8 v -> u8 (fst (f v)) ->
            u8 (fst (shift_with f r v)) /\ regs_ok (snd (shift_with f r v))).
  { intros f v Hv Hf. unfold shift_with. destruct (f v) as [v' cb]. cbn in Hf |- *.
    split; [exact Hf|exact Hr]. }
  assert (ST : u8 (status_byte (rP r))) by apply status_byte_u8.
  assert (L : forall w, u16 w -> u8 (low w) /\ u8 (high w))
    by (intros w; unfold u16, u8, low, high; lia).
  destruct mn; cbn [bus_execute]; try exact X; clear X;
    try (apply bus_store_op_ok; assumption);
    try (apply bus_read_op_ok; try assumption; intros v Hv);
    try (apply bus_modify_op_ok; try assumption; intros v Hv);
    try (apply SM; [exact Hv|]);
    try (refine (conj _ (conj _ (conj _ (conj _ _))));
         first [exact HA|exact HX|exact HY|exact HS|exact HPC|exact Hv|apply u8_mod
               |apply u8_land; assumption|apply u8_lor; assumption|apply u8_lxor; assumption]; fail).
  - (* asl *) apply u8_mod.
  - (* brk *) unfold after.
    destruct (ask b 65534 s) as [[lo s1]|] eqn:E1; [|discriminate].
    destruct (ask b 65535 s1) as [[hi s2]|] eqn:E2; [|discriminate].
    apply ask_u8 in E1, E2. intros [= <- <-]. split; cbn [e_regs e_stores].
    + refine (conj HA (conj HX (conj HY (conj (u8_mod _) _)))). apply word_u16; assumption.
    + repeat apply Forall_cons; try apply Forall_nil; cbn [fst snd];
        (split; [apply stack_u16|first [exact ST|apply L, u16_mod]]).
  - split; [apply u8_mod|exact Hr].
  - split; [apply u8_mod|exact Hr].
  - (* jmp *)
    assert (J : forall pc', u16 pc' -> effect_ok (mkEffect (withPC r pc') [] c)).
    { intros pc' K. split; [|constructor]. exact (conj HA (conj HX (conj HY (conj HS K)))). }
    assert (W := word_u16 b1 b2 H1 H2).
    destruct m; try (intros [= <- <-]; apply J; exact W).
    unfold after. destruct (ask b (word b1 b2) s) as [[lo s1]|] eqn:E1; [|discriminate].
    destruct (unchecked p 65536 (word b1 b2 + 1)) as [a|]; [|discriminate]. cbn [given done].
    destruct (ask b a s1) as [[hi s2]|] eqn:E2; [|discriminate].
    apply ask_u8 in E1, E2. intros [= <- <-]. apply J, word_u16; assumption.
  - (* lsr *) unfold u8 in *. cbn [spec_lsr fst]. lia.
  - (* pla *) unfold after. destruct (ask b _ s) as [[v s1]|] eqn:E1; [|discriminate].
    apply ask_u8 in E1. intros [= <- <-]. split; [|constructor]. apply regs_ok_advance.
    exact (conj E1 (conj HX (conj HY (conj (u8_mod _) HPC)))).
  - (* plp *) unfold after. destruct (ask b _ s) as [[v s1]|] eqn:E1; [|discriminate].
    intros [= <- <-]. split; [|constructor]. apply regs_ok_advance.
    exact (conj HA (conj HX (conj HY (conj (u8_mod _) HPC)))).
  - (* rol *) specialize (Hbit (ps_carry (rP r))). cbn [spec_rol fst]. unfold u8 in *. lia.
  - (* ror *) specialize (Hbit (ps_carry (rP r))). cbn [spec_ror fst]. unfold u8 in *. lia.
  - (* rti *) unfold after.
    destruct (ask b _ s) as [[v s1]|]; [|discriminate].
    destruct (ask b _ s1) as [[lo s2]|]; [|discriminate].
    destruct (ask b _ s2) as [[hi s3]|]; [|discriminate].
    intros [= <- <-]. split; [|constructor].
    exact (conj HA (conj HX (conj HY (conj (u8_mod _) (u16_mod _))))).
  - (* rts *) unfold after.
    destruct (ask b _ s) as [[lo s1]|]; [|discriminate].
    destruct (ask b _ s1) as [[hi s2]|]; [|discriminate].
    intros [= <- <-]. split; [|constructor].
    exact (conj HA (conj HX (conj HY (conj (u8_mod _) (u16_mod _))))).
Qed.

Lemma bus_effect_ok r s e s' : regs_ok r -> bus_effect b p r s = Ok (e, s') -> effect_ok e.
Proof.
  intros Hr. unfold bus_effect, bus_fetch, after.
  destruct (ask b (rPC r) s) as [[b0 s0]|] eqn:E0; [|discriminate].
  destruct (unchecked p 65536 (rPC r + 1)) as [a1|]; [|discriminate]. cbn [given done].
  destruct (ask b a1 s0) as [[b1 s1]|] eqn:E1; [|discriminate].
  destruct (unchecked p 65536 (rPC r + 2)) as [a2|]; [|discriminate]. cbn [given done].
  destruct (ask b a2 s1) as [[b2 s2]|] eqn:E2; [|discriminate]. cbn [done].
  apply ask_u8 in E0, E1, E2.
  destruct (decode b0) as [[[mn m] c]|]; [|discriminate].
  apply bus_execute_ok; assumption.
Qed.
End Range.

(** ** The instruction *)
Section Next.
Context {S : Type} (b : bus S).
Hypothesis Hb : byte_bus b.
Variable p : profile.

Lemma same_regs (c : core) c' : regs_of c = regs_of c' -> c = c'.
Proof.
  destruct c as [m ? ? ? ? ? ?], c' as [m' ? ? ? ? ? ?]. unfold regs_of. cbn. intros [= -> -> -> -> -> ->].
  destruct m as [|[? ? d] ?]; [|destruct d]. destruct m' as [|[? ? d] ?]; [|destruct d]. reflexivity.
Qed.

(** A generated instruction, split into the parts the pipeline uses. *)
Lemma generated (cpu : core) s : regs_ok (regs_of cpu) ->
  match answer b (generate_next p cpu) s with
  | Panic => bus_effect b p (regs_of cpu) s = Panic
  | Ok (mops, s1) =>
      exists j mc cpu' e,
        ops_cycles mops = Datatypes.S j /\
        operations_into_cycles mops = Ok (repeat [] j ++ [mc]) /\
        bus_effect b p (regs_of cpu) s = Ok (e, s1) /\
        regs_of cpu' = e_regs e /\ e_cycles e = Datatypes.S j /\
        forall s2, foldM (execute_bus b p) mc (cpu, s2) =
          (do! ' (_, s3) <- bus_store_all b (e_stores e) s2 ; Ok (cpu', s3))
  end \/ bus_effect b p (regs_of cpu) s = Panic /\
         exists mops s1, answer b (generate_next p cpu) s = Ok (mops, s1) /\
           (operations_into_cycles mops = Panic \/
            exists j mc, operations_into_cycles mops = Ok (repeat [] j ++ [mc]) /\
              forall s2, foldM (execute_bus b p) mc (cpu, s2) = Panic).
Proof.
  intros (HA & HX & HY & HS & HPC).
  pose proof (effect_agrees b p cpu Hb HA HX HY HS HPC s) as E.
  destruct (answer b (generate_next p cpu) s) as [[mops s1]|] eqn:Ea;
    [|left; symmetry; exact E].
  unfold effect_of in E.
  destruct (operations_into_cycles mops) as [cs|] eqn:Ec;
    [|right; split; [symmetry; exact E|]; exists mops, s1; auto].
  assert (Hsh : exists j mc, ops_cycles mops = Datatypes.S j /\ cs = repeat [] j ++ [mc]).
  { unfold operations_into_cycles in Ec. destruct (ops_cycles mops) as [|j] eqn:Ek; [discriminate|].
    injection Ec as <-. eauto. }
  destruct Hsh as (j & mc & Ek & ->). rewrite concat_repeat_nil in E.
  destruct (foldM (reg_exec p) mc cpu) as [cpu'|] eqn:Ef.
  - left. exists j, mc, cpu', (mkEffect (regs_of cpu') (flat_map bus_writes mc) (ops_cycles mops)).
    repeat split; try assumption; [symmetry; exact E|].
    intros s2. rewrite fold_bus, Ef. reflexivity.
  - right. split; [symmetry; exact E|]. exists mops, s1. split; [reflexivity|]. right.
    exists j, mc. split; [exact Ec|]. intros s2. rewrite fold_bus, Ef. reflexivity.
Qed.

(** One call of [next]. *)
Lemma next_bus_spec (cpu : core) s : regs_ok (regs_of cpu) ->
  (do! ' (mops, (cpu', s')) <- next_bus b p (cpu, s) ; Ok (ops_cycles mops, regs_of cpu', s'))
  = bus_step b p (regs_of cpu) s.
Proof.
  intros Hr. unfold next_bus, bus_step. unfold after.
  destruct (generated cpu s Hr) as [G|(Ee & mops & s1 & Ea & G)].
  - destruct (answer b (generate_next p cpu) s) as [[mops s1]|]; cbn [bind].
    + destruct G as (j & mc & cpu' & e & Ek & Ec & Ee & Er & Ey & Ef).
      rewrite Ec, Ee. cbn [bind]. rewrite concat_repeat_nil, Ef.
      destruct (bus_store_all b (e_stores e) s1) as [[u s3]|]; cbn [bind]; [|reflexivity].
      rewrite Er, Ek, Ey. reflexivity.
    + rewrite G. reflexivity.
  - rewrite Ee, Ea. cbn [bind]. destruct G as [Ec|(j & mc & Ec & Ef)]; rewrite Ec; cbn [bind]; [reflexivity|].
    rewrite concat_repeat_nil, Ef. reflexivity.
Qed.

(** ** The pipeline *)
Notation pipe := (bus_pipeline_run b p).

Lemma pipe_empties s mc it st : forall j n, (n <= j)%nat ->
  pipe n (mkBusPipeline s (repeat [] j ++ [mc]) it st)
  = Ok (mkBusPipeline s (repeat [] (j - n) ++ [mc]) it st).
Proof.
  induction j as [|j IH]; intros n Hn; destruct n as [|n]; try reflexivity; [lia|].
  cbn [repeat app bus_pipeline_run]. unfold bus_pipeline_cycle.
  cbn [bp_buffer bp_bus bp_iter bp_state foldM bind].
  rewrite IH by lia. reflexivity.
Qed.

Lemma pipe_split : forall n m q, pipe (n + m) q = (do! q' <- pipe n q ; pipe m q').
Proof.
  induction n as [|n IH]; intros m q; [reflexivity|]. cbn [Nat.add bus_pipeline_run].
  destruct (bus_pipeline_cycle b p q); cbn [bind]; [apply IH|reflexivity].
Qed.

Lemma pipe_spec : forall fuel n (cpu : core) s, (n <= fuel)%nat -> regs_ok (regs_of cpu) ->
  (do! q <- pipe n (mkBusPipeline s [] cpu cpu) ; Ok (regs_of (bp_state q), bp_bus q))
  = bus_run b p fuel n (regs_of cpu) s.
Proof.
  induction fuel as [|fuel IH]; intros n cpu s Hn Hr.
  { replace n with O by lia. reflexivity. }
  destruct n as [|n]; [reflexivity|]. cbn [bus_run]. unfold after.
  assert (Hpull : forall mops s1 j mc it s2,
    answer b (generate_next p cpu) s = Ok (mops, s1) ->
    operations_into_cycles mops = Ok (repeat [] j ++ [mc]) ->
    foldM (execute_bus b p) mc (cpu, s1) = Ok (it, s2) ->
    pipe (Datatypes.S n) (mkBusPipeline s [] cpu cpu) =
    pipe (Datatypes.S n) (mkBusPipeline s2 (repeat [] j ++ [mc]) it cpu)).
  { intros mops s1 j mc it s2 Ea Ec Ef. cbn [bus_pipeline_run]. unfold bus_pipeline_cycle at 1.
    cbn [bp_buffer bp_bus bp_iter bp_state]. unfold next_bus. rewrite Ea. cbn [bind]. rewrite Ec. cbn [bind].
    rewrite concat_repeat_nil, Ef. cbn [bind]. rewrite Ec. cbn [bind].
    unfold bus_pipeline_cycle. cbn [bp_buffer bp_bus bp_iter bp_state].
    destruct j as [|j]; cbn [repeat app]; reflexivity. }
  destruct (generated cpu s Hr) as [G|(Ee & mops & s1 & Ea & G)].
  - destruct (answer b (generate_next p cpu) s) as [[mops s1]|] eqn:Ea; cbn [bind].
    + destruct G as (j & mc & cpu' & e & Ek & Ec & Ee & Er & Ey & Ef).
      rewrite Ee. pose proof (bus_effect_ok b Hb p _ _ _ _ Hr Ee) as [Hr' _].
      destruct (bus_store_all b (e_stores e) s1) as [[u s2]|] eqn:E1.
      * rewrite (Hpull mops s1 j mc cpu' s2 eq_refl Ec) by (rewrite Ef, E1; reflexivity).
        rewrite Ey. destruct (Nat.ltb_spec (Datatypes.S n) (Datatypes.S j)) as [Hlt|Hge].
        -- rewrite pipe_empties by lia. reflexivity.
        -- replace (Datatypes.S n) with (j + Datatypes.S (n - j))%nat at 1 by lia.
           rewrite pipe_split, pipe_empties by lia. cbn [bind]. rewrite Nat.sub_diag. cbn [repeat app bus_pipeline_run].
           unfold bus_pipeline_cycle at 1. cbn [bp_buffer bp_bus bp_iter bp_state bind].
           rewrite Ef. destruct (bus_store_all b (e_stores e) s2) as [[u' s3]|]; cbn [bind]; [|reflexivity].
           replace (Datatypes.S n - Datatypes.S j)%nat with (n - j)%nat by lia.
           rewrite <- Er. apply IH; [lia|]. rewrite Er. exact Hr'.
      * cbn [bus_pipeline_run]. unfold bus_pipeline_cycle at 1.
        cbn [bp_buffer bp_bus bp_iter bp_state]. unfold next_bus. rewrite Ea. cbn [bind].
        rewrite Ec. cbn [bind]. rewrite concat_repeat_nil, Ef, E1. reflexivity.
    + rewrite G. cbn [bus_pipeline_run]. unfold bus_pipeline_cycle at 1.
      cbn [bp_buffer bp_bus bp_iter bp_state]. unfold next_bus. rewrite Ea. reflexivity.
  - rewrite Ee. cbn [bus_pipeline_run]. unfold bus_pipeline_cycle at 1.
    cbn [bp_buffer bp_bus bp_iter bp_state]. unfold next_bus. rewrite Ea. cbn [bind].
    destruct G as [Ec|(j & mc & Ec & Ef)]; rewrite Ec; cbn [bind]; [reflexivity|].
    rewrite concat_repeat_nil, Ef. reflexivity.
Qed.
End Next.
