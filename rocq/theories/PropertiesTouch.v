(** C81: a run depends on nothing but the registers and the bytes it reads
    before writing them, and changes nothing but the bytes it writes. *)
From Verif Require Import Base Arith ModelMap ModelStep ModelRegs6502 ModelCpu6502 ModelOperand ModelIsa6502
  ModelRun6502 ModelIo ModelBus SpecMap Link6502 ProofRun6502 ProofBus ProofBusStep ProofBusRun ProofBusMap ProofBusLog PropertiesBus Demo6502.
From Verif Require Import Spec6502 SpecBus SpecProgram SpecTouch.

(** ** Every run has a trace *)
Lemma step_traced {D} `{Device D} p (cpu : mos6502 D) c cpu' : observed_step p cpu = Ok (c, cpu') <->
  exists mops k m acc, next_bus (watched (map_bus p)) p (core_of cpu, (amap cpu, [])) = Ok (mops, (k, (m, acc))) /\
    c = ops_cycles mops /\ cpu' = cpu_with (regs_of k) m.
Proof.
  unfold observed_step. rewrite C66_map_is_a_bus. rewrite (C66_watching _ (map_bus p) p (core_of cpu) (amap cpu) []).
  destruct (next_bus (watched (map_bus p)) p (core_of cpu, (amap cpu, []))) as [[mops [k [m acc]]]|]; cbn [bind].
  - split.
    + intros [= <- <-]. exists mops, k, m, acc. auto.
    + intros (? & ? & ? & ? & [= <- <- <- <-] & -> & ->). reflexivity.
  - split; [discriminate|]. intros (? & ? & ? & ? & E & _). discriminate.
Qed.

Theorem C81_every_run_has_a_trace : forall D (dev : Device D) p k t (cpu : mos6502 D) cpu',
  steps p k t cpu cpu' <-> exists acc, traced p k t cpu acc cpu'.
Proof.
  intros D dev p. split.
  - induction 1 as [cpu|k t c cpu cpu1 cpu2 E S (acc & IH)]; [exists []; constructor|].
    apply step_traced in E. destruct E as (mops & x & m & a & E & -> & ->). exists (a ++ acc). econstructor; eassumption.
  - intros (acc & T). induction T as [cpu|k t cpu mops c m acc acc' cpu' E T IH]; [constructor|].
    eapply steps_cons; [|exact IH]. apply step_traced. exists mops, c, m, acc. auto.
Qed.

(** ** Plain memory *)
(** Reading through a check that the answer is a byte, which on plain maps
    makes no difference. *)
Definition safe (p : profile) : bus (address_map memory) :=
  mkBus (fun m a => match am_read p m a with
                    | Ok v => if (0 <=? v) && (v <? 256) then Ok (v, m) else Panic | Panic => Panic end)
    (b_write (map_bus p)).
Lemma safe_bytes p : byte_bus (safe p).
Proof.
  intros s a v s'. cbn. destruct (am_read p s a) as [x|]; [|discriminate].
  destruct ((0 <=? x) && (x <? 256)) eqn:E; [|discriminate]. intros [= <- _]. unfold u8. lia.
Qed.
Lemma safe_answer p m {A} (x : io A) : plain_map m -> forall l,
  answer (watched (map_bus p)) x (m, l) = answer (watched (safe p)) x (m, l).
Proof.
  intros Hp. induction x as [a| |addr k IH]; intros l; [reflexivity|reflexivity|]. cbn [answer watched b_read map_bus safe].
  destruct (plain_read p m addr Hp) as (v & E & Hv). rewrite E. cbn [bind].
  unfold u8 in Hv. replace ((0 <=? v) && (v <? 256)) with true by lia. cbn [bind]. apply IH.
Qed.
Lemma safe_fold p l : forall st, foldM (execute_bus (watched (map_bus p)) p) l st = foldM (execute_bus (watched (safe p)) p) l st.
Proof. reflexivity. Qed.
Lemma safe_next p m cpu l : plain_map m -> next_bus (watched (map_bus p)) p (cpu, (m, l)) = next_bus (watched (safe p)) p (cpu, (m, l)).
Proof.
  intros Hp. unfold next_bus. rewrite (safe_answer p m _ Hp).
  destruct (answer (watched (safe p)) (generate_next p cpu) (m, l)) as [[mops s1]|]; reflexivity.
Qed.

Definition byte_writes (acc : list access) : Prop := Forall (fun x => match x with Rd _ _ => True | Wr _ v => u8 v end) acc.

Lemma step_shape p (cpu : core) m mops c m' acc : plain_map m -> regs_ok (regs_of cpu) ->
  next_bus (watched (map_bus p)) p (cpu, (m, [])) = Ok (mops, (c, (m', acc))) -> byte_writes acc.
Proof.
  intros Hp Hr E. rewrite (safe_next p m cpu [] Hp) in E.
  destruct (C66_accesses _ _ _ _ _ _ _ _ _ _ (safe_bytes p) Hr E) as (b0 & b1 & b2 & mn & md & n & q & st & _ & _ & -> & e & s1 & Ee & ->).
  pose proof (bus_effect_ok (watched (safe p)) (watched_bytes _ (safe_bytes p)) p _ _ _ _ Hr Ee) as [_ K].
  unfold byte_writes, accesses. cbn [app]. repeat (apply Forall_cons; [exact I|]). apply Forall_app. split.
  - apply Forall_forall. intros x Hx. apply in_map_iff in Hx. destruct Hx as (? & <- & _). exact I.
  - unfold stores_ok in K. rewrite Forall_forall in *. intros x Hx. apply in_map_iff in Hx. destruct Hx as (y & <- & Hy). apply K, Hy.
Qed.

Lemma follows_memory p m acc m' : follows (map_bus p) m acc m' -> plain_map m -> byte_writes acc ->
  plain_map m' /\ (forall a, ram_at m' a <-> ram_at m a) /\ (forall a, peek p m' a = finally acc a (peek p m a)) /\
  (forall a, written acc a -> ram_at m a).
Proof.
  induction 1 as [m|m a v m1 l m2 E F IH|m a v m1 l m2 E F IH]; intros Hp Hb.
  - split; [exact Hp|]. split; [tauto|]. split; [reflexivity|]. intros a (v & []).
  - cbn in E. destruct (am_read p m a) as [x|]; [|discriminate]. injection E as _ <-.
    apply Forall_cons_iff in Hb as [_ Hb]. destruct (IH Hp Hb) as (K1 & K2 & K3 & K4). split; [exact K1|]. split; [exact K2|].
    split; [exact K3|]. intros q (w & [Q|Q]); [discriminate|]. apply K4. exists w. exact Q.
  - apply Forall_cons_iff in Hb as [Hv Hb]. cbn in E. destruct (am_write p m a v) as [[mx [w|]]|] eqn:Ew; try discriminate.
    assert (Q : mx = m1) by congruence. subst mx. destruct (plain_write p m a v m1 w Hp Hv Ew) as (P1 & P2 & P3).
    destruct (IH P1 Hb) as (K1 & K2 & K3 & K4). split; [exact K1|]. split; [intros q; rewrite K2; apply P2|]. split.
    + intros q. rewrite K3, P3. reflexivity.
    + intros q (u & [Q|Q]).
      * assert (q = a) by congruence. subst q.
        destruct (plain_write_shape p m a v m1 w Hp Hv Ew) as (l1 & e & l2 & d' & -> & Hc & Hk & _).
        exists e. split; [apply in_elt|]. split; [exact Hc|exact Hk].
      * apply P2, K4. exists u. exact Q.
Qed.

(** Another memory that agrees on what is needed follows the same accesses. *)
Lemma follows_other p m acc m' : follows (map_bus p) m acc m' -> plain_map m -> byte_writes acc ->
  forall n, plain_map n -> (forall a, needs acc a -> peek p n a = peek p m a) -> (forall a, written acc a -> ram_at n a) ->
  exists n', follows (map_bus p) n acc n'.
Proof.
  induction 1 as [m|m a v m1 l m2 E F IH|m a v m1 l m2 E F IH]; intros Hp Hb n Hn Ha Hw.
  - exists n. constructor.
  - cbn in E. destruct (am_read p m a) as [x|] eqn:Er; [|discriminate]. injection E as -> <-. apply Forall_cons_iff in Hb as [_ Hb].
    destruct (IH Hp Hb n Hn) as (n' & K); [intros q Hq; apply Ha; right; exact Hq|intros q (w & Q); apply Hw; exists w; right; exact Q|].
    exists n'. eapply follows_read; [|exact K]. cbn. pose proof (Ha a (or_introl eq_refl)) as Q. unfold peek in Q. rewrite Er in Q.
    destruct (plain_read p n a Hn) as (y & Ey & _). rewrite Ey in Q |- *. cbn. rewrite Q. reflexivity.
  - apply Forall_cons_iff in Hb as [Hv Hb]. cbn in E. destruct (am_write p m a v) as [[mx [w|]]|] eqn:Ew; try discriminate.
    assert (Q : mx = m1) by congruence. subst mx. destruct (plain_write p m a v m1 w Hp Hv Ew) as (P1 & P2 & P3).
    destruct (plain_write_ok p n a v Hn Hv) as (n1 & En); [apply Hw; exists v; left; reflexivity|].
    destruct (plain_write p n a v n1 v Hn Hv En) as (N1 & N2 & N3).
    destruct (IH P1 Hb n1 N1) as (n' & K).
    + intros q Hq. rewrite N3, P3. destruct (q =? a) eqn:Eq; [reflexivity|]. apply Ha. split; [lia|exact Hq].
    + intros q (u & Q). apply N2, Hw. exists u. right. exact Q.
    + exists n'. eapply follows_write; [|exact K]. cbn. rewrite En. reflexivity.
Qed.

Lemma core_of_eq {D} `{Device D} (cpu cpu' : mos6502 D) : regs_of cpu = regs_of cpu' -> core_of cpu = core_of cpu'.
Proof. intros E. apply same_regs. exact E. Qed.

(** The whole trace on its memory. *)
Lemma traced_follows p k t (cpu : mos6502 memory) acc cpu' : traced p k t cpu acc cpu' ->
  plain_map (amap cpu) -> regs_ok (regs_of cpu) ->
  follows (map_bus p) (amap cpu) acc (amap cpu') /\ byte_writes acc.
Proof.
  induction 1 as [cpu|k t cpu mops c m acc acc' cpu' E T IH]; intros Hp Hr.
  - split; constructor.
  - assert (B := step_shape p (core_of cpu) (amap cpu) _ _ _ _ Hp Hr E).
    destruct (C67_only_answers_matter _ _ _ (map_bus p) _ _ _ _ _ _ _ _ E) as (acc0 & E0 & F & _). cbn [app] in E0. subst acc0.
    destruct (follows_memory p _ _ _ F Hp B) as (Hp1 & _).
    assert (Hr1 : regs_ok (regs_of (cpu_with (regs_of c) m))).
    { assert (Es : observed_step p cpu = Ok (ops_cycles mops, cpu_with (regs_of c) m)) by (apply step_traced; eauto 7).
      assert (Bs := plain_ram_bus p (fun _ => False)).
      assert (Hi : plain_with (fun _ => False) (amap cpu)) by (split; [exact Hp|intros ? []]).
      exact (proj1 (proj2 (step_inv p _ _ Bs cpu _ _ Hi Hr Es))). }
    destruct (IH Hp1 Hr1) as [F' B']. split; [exact (follows_app _ _ _ _ _ _ F F')|]. apply Forall_app. split; assumption.
Qed.

(** ** The theorems *)

(** After a run every byte is the one written there last, or the one that was
    there before; only RAM is written. *)
Theorem C81_memory_after_a_run : forall p k t (cpu : mos6502 memory) acc cpu',
  plain_map (amap cpu) -> regs_ok (regs_of cpu) -> traced p k t cpu acc cpu' ->
  (forall a, peek p (amap cpu') a = finally acc a (peek p (amap cpu) a)) /\
  (forall a, written acc a -> ram_at (amap cpu) a).
Proof.
  intros p k t cpu acc cpu' Hp Hr T. destruct (traced_follows p k t cpu acc cpu' T Hp Hr) as [F B].
  destruct (follows_memory p _ _ _ F Hp B) as (_ & _ & K3 & K4). auto.
Qed.

Lemma finally_unwritten acc a : forall v, ~ written acc a -> finally acc a v = v.
Proof.
  induction acc as [|[b w|b w] l IH]; intros v Hn; [reflexivity| |]; cbn [finally].
  - apply IH. intros (u & Q). apply Hn. exists u. right. exact Q.
  - destruct (a =? b) eqn:E; [|apply IH; intros (u & Q); apply Hn; exists u; right; exact Q].
    exfalso. apply Hn. exists w. left. f_equal. lia.
Qed.
Theorem C81_unwritten_bytes_stay : forall p k t (cpu : mos6502 memory) acc cpu' a,
  plain_map (amap cpu) -> regs_ok (regs_of cpu) -> traced p k t cpu acc cpu' ->
  ~ written acc a -> peek p (amap cpu') a = peek p (amap cpu) a.
Proof.
  intros p k t cpu acc cpu' a Hp Hr T Hn. rewrite (proj1 (C81_memory_after_a_run p k t cpu acc cpu' Hp Hr T)).
  apply finally_unwritten. exact Hn.
Qed.

Lemma needs_app l l' a : needs l a -> needs (l ++ l') a.
Proof. induction l as [|[b v|b v] l IH]; cbn [needs app]; tauto. Qed.
Lemma needs_later l l' a : ~ written l a -> needs l' a -> needs (l ++ l') a.
Proof.
  induction l as [|[b v|b v] l IH]; intros Hn Hl; cbn [needs app]; [exact Hl| |].
  - right. apply IH; [|exact Hl]. intros (u & Q). apply Hn. exists u. right. exact Q.
  - split; [intros ->; apply Hn; exists v; left; reflexivity|]. apply IH; [|exact Hl]. intros (u & Q). apply Hn. exists u. right. exact Q.
Qed.
Lemma written_dec l a : written l a \/ ~ written l a.
Proof.
  induction l as [|[b v|b v] l IH].
  - right. intros (v & []).
  - destruct IH as [(u & Q)|N]; [left; exists u; right; exact Q|right]. intros (u & [Q|Q]); [discriminate|]. apply N. exists u. exact Q.
  - destruct (Z.eq_dec a b) as [->|Hn]; [left; exists v; left; reflexivity|].
    destruct IH as [(u & Q)|N]; [left; exists u; right; exact Q|right]. intros (u & [Q|Q]); [congruence|]. apply N. exists u. exact Q.
Qed.
Lemma finally_written l a v : written l a -> forall u, finally l a v = finally l a u.
Proof.
  revert v. induction l as [|[b w|b w] l IH]; intros v (x & Q) u; [destruct Q| |]; destruct Q as [Q|Q]; try discriminate; cbn [finally].
  - apply IH. exists x. exact Q.
  - replace (a =? b) with true by (assert (a = b) by congruence; lia). reflexivity.
  - apply IH. exists x. exact Q.
Qed.

(** Two machines with the same registers and the same bytes at the addresses a
    run reads before writing them: the run is the same on both, access by
    access, and leaves the same registers.  The rest of the memory may be
    anything, as long as the run's writes hit RAM. *)
Theorem C81_only_needed_bytes_matter : forall p k t (cpu1 cpu2 : mos6502 memory) acc cpu1',
  plain_map (amap cpu1) -> plain_map (amap cpu2) -> regs_ok (regs_of cpu1) -> regs_of cpu2 = regs_of cpu1 ->
  traced p k t cpu1 acc cpu1' ->
  (forall a, needs acc a -> peek p (amap cpu2) a = peek p (amap cpu1) a) ->
  (forall a, written acc a -> ram_at (amap cpu2) a) ->
  exists cpu2', traced p k t cpu2 acc cpu2' /\ regs_of cpu2' = regs_of cpu1' /\ runs p k t cpu2 cpu2' /\
    forall a, written acc a -> peek p (amap cpu2') a = peek p (amap cpu1') a.
Proof.
  intros p k t cpu1 cpu2 acc cpu1' Hp1 Hp2 Hr E T Hn Hw.
  assert (K : exists cpu2', traced p k t cpu2 acc cpu2' /\ regs_of cpu2' = regs_of cpu1').
  { revert cpu2 Hp2 E Hn Hw. induction T as [cpu1|k t cpu1 mops c m acc acc' cpu1' Es T IH]; intros cpu2 Hp2 E Hn Hw.
    - exists cpu2. split; [constructor|exact E].
    - assert (T1 : traced p 1 (ops_cycles mops + 0) cpu1 (acc ++ []) (cpu_with (regs_of c) m)) by (econstructor; [exact Es|constructor]).
      rewrite app_nil_r in T1. destruct (traced_follows _ _ _ _ _ _ T1 Hp1 Hr) as [F B]. cbn [amap cpu_with] in F.
      destruct (follows_memory p _ _ _ F Hp1 B) as (Pm & Rm & Fm & Wm).
      destruct (follows_other p _ _ _ F Hp1 B (amap cpu2) Hp2) as (m2 & F2);
        [intros a Ha; apply Hn, needs_app, Ha|intros a (v & Q); apply Hw; exists v; apply in_or_app; left; exact Q|].
      destruct (follows_memory p _ _ _ F2 Hp2 B) as (Pm2 & Rm2 & Fm2 & _).
      assert (E2 : next_bus (watched (map_bus p)) p (core_of cpu2, (amap cpu2, [])) = Ok (mops, (c, (m2, acc)))).
      { rewrite (core_of_eq cpu2 cpu1 E). destruct (C67_only_answers_matter _ _ _ (watched (map_bus p)) _ _ _ _ _ _ _ _ Es) as (acc0 & E0 & _ & G).
        cbn [app] in E0. subst acc0. apply G. clear - F2. change acc with ([] ++ acc) at 2. generalize (@nil access) as l.
        induction F2 as [s|s a v s1 l0 s2 Hx F IH|s a v s1 l0 s2 Hx F IH]; intros l.
        - rewrite app_nil_r. constructor.
        - eapply follows_read; [cbn [watched b_read]; rewrite Hx; reflexivity|]. specialize (IH (l ++ [Rd a v])). rewrite <- app_assoc in IH. exact IH.
        - eapply follows_write; [cbn [watched b_write]; rewrite Hx; reflexivity|]. specialize (IH (l ++ [Wr a v])). rewrite <- app_assoc in IH. exact IH. }
      assert (Hr1 : regs_ok (regs_of (cpu_with (regs_of c) m))).
      { assert (Ex : observed_step p cpu1 = Ok (ops_cycles mops, cpu_with (regs_of c) m)) by (apply step_traced; eauto 7).
        assert (Bs := plain_ram_bus p (fun _ => False)).
        assert (Hi : plain_with (fun _ => False) (amap cpu1)) by (split; [exact Hp1|intros ? []]).
        exact (proj1 (proj2 (step_inv p _ _ Bs cpu1 _ _ Hi Hr Ex))). }
      destruct (IH Pm Hr1 (cpu_with (regs_of c) m2) Pm2) as (cpu2' & T2 & E3).
      + rewrite !regs_of_cpu_with. reflexivity.
      + cbn [amap cpu_with]. intros a Ha. rewrite Fm, Fm2. destruct (written_dec acc a) as [W|W].
        * apply finally_written. exact W.
        * rewrite !finally_unwritten by exact W. apply Hn, needs_later; assumption.
      + cbn [amap cpu_with]. intros a (v & Q). apply Rm2, Hw. exists v. apply in_or_app. right. exact Q.
      + exists cpu2'. split; [|exact E3]. econstructor; eassumption. }
  destruct K as (cpu2' & T2 & E2). exists cpu2'. split; [exact T2|]. split; [exact E2|]. split.
  - assert (St : steps p k t cpu2 cpu2') by (apply C81_every_run_has_a_trace; eauto). split; [exact St|].
    apply run_ready_iff. exists k, t. split; [exact St|]. split; [lia|left; reflexivity].
  - intros a W. assert (Hr2 : regs_ok (regs_of cpu2)) by (rewrite E; exact Hr).
    rewrite (proj1 (C81_memory_after_a_run _ _ _ _ _ _ Hp1 Hr T)), (proj1 (C81_memory_after_a_run _ _ _ _ _ _ Hp2 Hr2 T2)).
    apply finally_written. exact W.
Qed.

Print Assumptions C81_every_run_has_a_trace.
Print Assumptions C81_memory_after_a_run.
Print Assumptions C81_unwritten_bytes_stay.
Print Assumptions C81_only_needed_bytes_matter.

(** ** A concrete case *)
(** LDA 0x10 / STA 0x11 / LDA 0x11: the trace; it needs the program and 0x10
    but not 0x11. *)
Definition touch_program : list Z := [0xa5; 0x10; 0x85; 0x11; 0xa5; 0x11; 0xea; 0xea].
Definition touch_machine (v w : Z) : mos6502 memory :=
  machine ([0; 0; 0; 0; 0; 0; 0; 0; 0; 0; 0; 0; 0; 0; 0; 0] ++ [v; w]) touch_program 0 0 0 0xff ps0.
Definition touch_trace : list access :=
  [Rd 0x8000 0xa5; Rd 0x8001 0x10; Rd 0x8002 0x85; Rd 0x10 7;
   Rd 0x8002 0x85; Rd 0x8003 0x11; Rd 0x8004 0xa5; Wr 0x11 7;
   Rd 0x8004 0xa5; Rd 0x8005 0x11; Rd 0x8006 0xea; Rd 0x11 7].
Fixpoint trace_of (p : profile) (k : nat) (cpu : mos6502 memory) : res (list access * mos6502 memory) :=
  match k with
  | O => Ok ([], cpu)
  | S k' => do! ' (mops, (c, (m, acc))) <- next_bus (watched (map_bus p)) p (core_of cpu, (amap cpu, [])) ;
            do! ' (acc', cpu') <- trace_of p k' (cpu_with (regs_of c) m) ; Ok (acc ++ acc', cpu')
  end.
Lemma trace_of_traced p k : forall cpu acc cpu', trace_of p k cpu = Ok (acc, cpu') -> exists t, traced p k t cpu acc cpu'.
Proof.
  induction k as [|k IH]; intros cpu acc cpu' E; cbn [trace_of] in E.
  - injection E as <- <-. exists 0%nat. constructor.
  - destruct (next_bus (watched (map_bus p)) p (core_of cpu, (amap cpu, []))) as [[mops [c [m a]]]|] eqn:En; cbn [bind] in E; [|discriminate].
    destruct (trace_of p k (cpu_with (regs_of c) m)) as [[a' cpu1]|] eqn:Et; cbn [bind] in E; [|discriminate].
    injection E as <- <-. destruct (IH _ _ _ Et) as (t & T). exists (ops_cycles mops + t)%nat. econstructor; eassumption.
Qed.
Example C81_trace : exists t cpu', traced Debug 3 t (touch_machine 7 1) touch_trace cpu' /\ ~ needs touch_trace 0x11 /\ needs touch_trace 0x10.
Proof.
  assert (E : match trace_of Debug 3 (touch_machine 7 1) with Ok (acc, _) => acc | Panic => [] end = touch_trace) by (vm_compute; reflexivity).
  destruct (trace_of Debug 3 (touch_machine 7 1)) as [[acc cpu']|] eqn:Et; [|discriminate]. subst acc.
  destruct (trace_of_traced _ _ _ _ _ Et) as (t & T). exists t, cpu'. split; [exact T|].
  unfold touch_trace. cbn [needs]. split; [|do 3 right; left; reflexivity]. intros H. repeat (destruct H as [H|H]; [discriminate H|]). destruct H as [H _]. apply H. reflexivity.
Qed.
Example C81_other_memory : exists t cpu', traced Debug 3 t (touch_machine 7 200) touch_trace cpu' /\ peek Debug (amap cpu') 0x11 = 7.
Proof.
  destruct C81_trace as (t & cpu' & T & N & _).
  destruct (machine_plain ([0; 0; 0; 0; 0; 0; 0; 0; 0; 0; 0; 0; 0; 0; 0; 0] ++ [7; 1]) touch_program 0 0 0 0xff ps0 eq_refl) as [P1 R1].
  destruct (machine_plain ([0; 0; 0; 0; 0; 0; 0; 0; 0; 0; 0; 0; 0; 0; 0; 0] ++ [7; 200]) touch_program 0 0 0 0xff ps0 eq_refl) as [P2 R2].
  destruct (C81_only_needed_bytes_matter Debug 3 t (touch_machine 7 1) (touch_machine 7 200) touch_trace cpu' P1 P2 R1 eq_refl T) as (c2 & T2 & _).
  - intros a Ha. unfold touch_trace in Ha. cbn [needs] in Ha.
    repeat (destruct Ha as [Ha|Ha]; [subst a; vm_compute; reflexivity|]). destruct Ha as [Hx Ha].
    repeat (destruct Ha as [Ha|Ha]; [subst a; (vm_compute; reflexivity) || lia|]). contradiction.
  - intros a (v & Q). unfold touch_trace in Q. cbn [In] in Q. repeat (destruct Q as [Q|Q]; [try discriminate Q|]); [|contradiction].
    assert (a = 0x11) by congruence. subst a. eexists. split; [left; reflexivity|]. cbn. split; [lia|reflexivity].
  - exists t, c2. split; [exact T2|]. rewrite (proj1 (C81_memory_after_a_run _ _ _ _ _ _ P2 R2 T2)). reflexivity.
Qed.
