(** The accesses of an instruction, from SpecBus.v. *)
From Verif Require Import Arith ModelRegs6502 ModelIsa6502 ModelCpu6502 ModelOperand ModelIo ModelBus Link6502
  ProofBus ProofBusStep ProofBusRun.
From Verif Require Import Spec6502 SpecBus.

Section Log.
Context {S : Type} (b : bus S).
Variable p : profile.
Notation w := (watched b).

Definition rds (q : list (Z * Z)) : list access := map (fun av => Rd (fst av) (snd av)) q.
Definition wrs (q : list (Z * Z)) : list access := map (fun av => Wr (fst av) (snd av)) q.

Lemma watched_bytes : byte_bus b -> byte_bus w.
Proof.
  intros Hb [s l] a v [s' l']. cbn. destruct (b_read b s a) as [[v' s1]|] eqn:E; [|discriminate].
  intros [= <- _ _]. exact (Hb _ _ _ _ E).
Qed.

(** Watching changes nothing else. *)
Lemma watched_answer {A} (x : io A) : forall s l,
  match answer w x (s, l) with
  | Ok (a, (s', l')) => answer b x s = Ok (a, s')
  | Panic => answer b x s = Panic
  end.
Proof.
  induction x as [a| |addr k IH]; intros s l; cbn [answer]; [reflexivity|reflexivity|].
  cbn [watched b_read]. destruct (b_read b s addr) as [[v s']|]; cbn [bind]; [apply IH|reflexivity].
Qed.

Lemma ask_log a s l v s' l' : ask w a (s, l) = Ok (v, (s', l')) -> l' = l ++ [Rd a v].
Proof. unfold ask. cbn. destruct (b_read b s a) as [[x s1]|]; [|discriminate]. intros [= <- _ <-]. reflexivity. Qed.

Lemma store_log : forall q s l u s' l', bus_store_all w q (s, l) = Ok (u, (s', l')) -> l' = l ++ wrs q.
Proof.
  induction q as [|[a v] q IH]; intros s l u s' l' E; cbn in E.
  - injection E as _ _ <-. cbn. rewrite app_nil_r. reflexivity.
  - unfold after, tell in E. cbn in E. destruct (b_write b s a v) as [s1|]; [|discriminate].
    apply IH in E. rewrite E, <- app_assoc. reflexivity.
Qed.

Lemma unchecked_mod v a : 0 <= v -> unchecked p 65536 v = Some a -> a = v mod 65536.
Proof.
  unfold unchecked. intros Hv. destruct (v <? 65536) eqn:E; [intros [= <-]; lia|].
  destruct p; [discriminate|]. intros [= <-]. reflexivity.
Qed.

(** What is known about the reads [q] of a step from [l] to [l']. *)
Definition grew (l l' : list access) (q : list (Z * Z)) : Prop := l' = l ++ rds q.

Ltac asks :=
  unfold after, given, done, stop;
  repeat match goal with
    | |- (match ask w ?a (?s, ?l) with _ => _ end = _) -> _ =>
        let v := fresh "v" in let s' := fresh "s" in let l' := fresh "l" in let E := fresh "E" in
        destruct (ask w a (s, l)) as [[v [s' l']]|] eqn:E; [|discriminate];
        pose proof (ask_log _ _ _ _ _ _ E)
    | |- (match (match unchecked p ?m ?x with _ => _ end) _ with _ => _ end = _) -> _ =>
        let a := fresh "a" in let E := fresh "U" in
        destruct (unchecked p m x) as [a|] eqn:E; [|discriminate]
    | |- (match unchecked p ?m ?x with _ => _ end _ = _) -> _ =>
        let a := fresh "a" in let E := fresh "U" in
        destruct (unchecked p m x) as [a|] eqn:E; [|discriminate]
    end.

Lemma address_log m r b1 b2 s l a s' l' : byte_bus b -> u8 (rX r) -> u8 (rY r) -> u8 b1 -> u8 b2 ->
  bus_address w p m r b1 b2 (s, l) = Ok (a, (s', l')) ->
  exists q, grew l l' q /\ map fst q = pointer_reads m r b1 /\
    forall q', a = effective m r b1 b2 (nth 0 (map snd (q ++ q')) 0) (nth 1 (map snd (q ++ q')) 0).
Proof.
  intros Hb HX HY H1 H2.
  destruct m; cbn [bus_address pointer_reads effective]; try discriminate;
    try (intros [= <- <- <-]; exists []; unfold grew, rds; cbn [map fst snd app nth]; rewrite app_nil_r; auto; fail).
  - asks. intros [= <- <- <-]. subst.
    exists [(b1, v); ((b1 + 1) mod 256, v0)]. unfold grew, rds. cbn [map fst snd app nth]. rewrite <- app_assoc.
    split; [reflexivity|]. split; [reflexivity|]. intros q'. cbn [app map snd nth]. apply (unchecked_mod _ _) in U; [exact U|].
    assert (Hw := watched_bytes Hb).
    apply Hw in E, E0. unfold word, u8 in *. lia.
  - asks. intros [= <- <- <-]. subst.
    exists [((b1 + rX r) mod 256, v); ((b1 + rX r + 1) mod 256, v0)]. unfold grew, rds. cbn [map fst snd app nth]. rewrite <- app_assoc.
    auto.
Qed.

Lemma execute_log mn m c r b1 b2 s l e s' l' : byte_bus b -> regs_ok r -> u8 b1 -> u8 b2 ->
  bus_execute w p mn m c r b1 b2 (s, l) = Ok (e, (s', l')) ->
  exists q, grew l l' q /\
    map fst q = reads_made mn m r b1 b2 (nth 0 (map snd q) 0) (nth 1 (map snd q) 0).
Proof.
  intros Hb (HA & HX & HY & HS & HPC) H1 H2.
  assert (W := word_u16 b1 b2 H1 H2).
  assert (R : forall f, bus_read_op w p m r b1 b2 c f (s, l) = Ok (e, (s', l')) ->
    exists q, grew l l' q /\ map fst q =
      if in_memory m then pointer_reads m r b1 ++ [effective m r b1 b2 (nth 0 (map snd q) 0) (nth 1 (map snd q) 0)]
      else []).
  { intros f.
    assert (G : after (bus_address w p m r b1 b2) (fun a => after (ask w a) (fun v =>
        done (mkEffect (advance m (f r v)) [] (c + read_penalty m b1 b2 a)))) (s, l) = Ok (e, (s', l')) ->
      exists q, grew l l' q /\ map fst q = pointer_reads m r b1 ++
          [effective m r b1 b2 (nth 0 (map snd q) 0) (nth 1 (map snd q) 0)]).
    { unfold after. destruct (bus_address w p m r b1 b2 (s, l)) as [[a [s1 l1]]|] eqn:Ea; [|discriminate].
      destruct (ask w a (s1, l1)) as [[v [s2 l2]]|] eqn:Ev; [|discriminate]. intros [= _ _ <-].
      destruct (address_log _ _ _ _ _ _ _ _ _ Hb HX HY H1 H2 Ea) as (q & Hg & Hf & He).
      apply ask_log in Ev. exists (q ++ [(a, v)]). split.
      - unfold grew in *. rewrite Ev, Hg, <- app_assoc. unfold rds. rewrite map_app. reflexivity.
      - rewrite map_app, Hf. cbn [map fst]. rewrite <- (He [(a, v)]). reflexivity. }
    destruct m; cbn [bus_read_op in_memory]; try exact G.
    - cbn. discriminate.
    - intros [= _ _ <-]. exists []. unfold grew, rds. cbn [map fst snd app nth]. rewrite app_nil_r. auto. }
  assert (T : forall v, bus_store_op w p m r b1 b2 c v (s, l) = Ok (e, (s', l')) ->
    exists q, grew l l' q /\ map fst q = pointer_reads m r b1).
  { intros v. unfold bus_store_op, after.
    destruct (bus_address w p m r b1 b2 (s, l)) as [[a [s1 l1]]|] eqn:Ea; [|discriminate].
    intros [= _ _ <-]. destruct (address_log _ _ _ _ _ _ _ _ _ Hb HX HY H1 H2 Ea) as (q & Hg & Hf & He).
    exists q. auto. }
  assert (M : forall f, bus_modify_op w p m r b1 b2 c f (s, l) = Ok (e, (s', l')) ->
    exists q, grew l l' q /\ map fst q =
      if in_memory m then pointer_reads m r b1 ++ [effective m r b1 b2 (nth 0 (map snd q) 0) (nth 1 (map snd q) 0)]
      else []).
  { intros f.
    assert (G : after (bus_address w p m r b1 b2) (fun a => after (ask w a) (fun old =>
        let '(v, r') := f r old in done (mkEffect (advance m r') [(a, v)] c))) (s, l) = Ok (e, (s', l')) ->
      exists q, grew l l' q /\ map fst q = pointer_reads m r b1 ++
          [effective m r b1 b2 (nth 0 (map snd q) 0) (nth 1 (map snd q) 0)]).
    { unfold after. destruct (bus_address w p m r b1 b2 (s, l)) as [[a [s1 l1]]|] eqn:Ea; [|discriminate].
      destruct (ask w a (s1, l1)) as [[v [s2 l2]]|] eqn:Ev; [|discriminate].
      destruct (f r v) as [v' r']. intros [= _ _ <-].
      destruct (address_log _ _ _ _ _ _ _ _ _ Hb HX HY H1 H2 Ea) as (q & Hg & Hf & He).
      apply ask_log in Ev. exists (q ++ [(a, v)]). split.
      - unfold grew in *. rewrite Ev, Hg, <- app_assoc. unfold rds. rewrite map_app. reflexivity.
      - rewrite map_app, Hf. cbn [map fst]. rewrite <- (He [(a, v)]). reflexivity. }
    destruct m; cbn [bus_modify_op in_memory]; try exact G.
    - destruct (f r (rA r)) as [v' r']. intros [= _ _ <-]. exists []. unfold grew, rds. cbn [map fst snd app nth]. rewrite app_nil_r. auto.
    - cbn. discriminate. }
  assert (N : given (execute p mn m c r (fun _ => 0) b1 b2) (s, l) = Ok (e, (s', l')) ->
    exists q, grew l l' q /\ map fst q = []).
  { destruct (execute p mn m c r (fun _ => 0) b1 b2); [|discriminate]. intros [= _ _ <-].
    exists []. unfold grew, rds. cbn [map fst snd app nth]. rewrite app_nil_r. auto. }
  destruct mn; cbn [bus_execute reads_made]; try exact N; try apply R; try apply T; try apply M.
  - (* brk *) asks. intros [= <- <- <-]. subst. exists [(65534, v); (65535, v0)].
    unfold grew, rds. cbn [map fst snd app nth]. rewrite <- app_assoc. auto.
  - (* jmp *) destruct m; try (intros [= _ _ <-]; exists []; unfold grew, rds; cbn [map fst snd app nth]; rewrite app_nil_r; auto; fail).
    asks. intros [= _ _ <-]. subst. exists [(word b1 b2, v); (a, v0)].
    unfold grew, rds. cbn [map fst snd app nth]. rewrite <- app_assoc. split; [reflexivity|].
    apply unchecked_mod in U; [subst; reflexivity|]. unfold u16 in W. lia.
  - (* pla *) asks. intros [= <- <- <-]. subst. eexists [(_, _)]. unfold grew, rds. cbn [map fst snd app nth]. split; reflexivity.
  - (* plp *) asks. intros [= <- <- <-]. subst. eexists [(_, _)]. unfold grew, rds. cbn [map fst snd app nth]. split; reflexivity.
  - (* rti *) asks. intros [= <- <- <-]. subst. eexists [(_, _); (_, _); (_, _)]. unfold grew, rds. cbn [map fst snd app nth].
    rewrite <- !app_assoc. split; reflexivity.
  - (* rts *) asks. intros [= <- <- <-]. subst. eexists [(_, _); (_, _)]. unfold grew, rds. cbn [map fst snd app nth].
    rewrite <- !app_assoc. split; reflexivity.
Qed.

Lemma effect_log r s l e s' l' : byte_bus b -> regs_ok r ->
  bus_effect w p r (s, l) = Ok (e, (s', l')) ->
  exists b0 b1 b2 mn m c q,
    decode b0 = Some (mn, m, c) /\
    map fst q = reads_made mn m r b1 b2 (nth 0 (map snd q) 0) (nth 1 (map snd q) 0) /\
    l' = l ++ [Rd (rPC r) b0; Rd ((rPC r + 1) mod 65536) b1; Rd ((rPC r + 2) mod 65536) b2] ++ rds q.
Proof.
  intros Hb Hr. unfold bus_effect, bus_fetch, after, done.
  destruct (ask w (rPC r) (s, l)) as [[b0 [s0 l0]]|] eqn:E; [|discriminate].
  destruct (unchecked p 65536 (rPC r + 1)) as [a1|] eqn:U; [|discriminate]. cbn [given done].
  destruct (ask w a1 (s0, l0)) as [[b1 [s1 l1]]|] eqn:E0; [|discriminate].
  destruct (unchecked p 65536 (rPC r + 2)) as [a2|] eqn:U0; [|discriminate]. cbn [given done].
  destruct (ask w a2 (s1, l1)) as [[b2 [s2 l2]]|] eqn:E1; [|discriminate].
  assert (L0 := ask_log _ _ _ _ _ _ E). assert (L1 := ask_log _ _ _ _ _ _ E0).
  assert (L2 := ask_log _ _ _ _ _ _ E1).
  assert (Hw := watched_bytes Hb). apply Hw in E, E0, E1.
  assert (H0 : 0 <= rPC r) by (destruct Hr as (_ & _ & _ & _ & K); unfold u16 in K; lia).
  apply unchecked_mod in U; [|lia]. apply unchecked_mod in U0; [|lia].
  destruct (decode b0) as [[[mn m] c]|] eqn:Ed; [|discriminate]. intros Ex.
  destruct (execute_log _ _ _ _ _ _ _ _ _ _ _ Hb Hr E0 E1 Ex) as (q & Hg & Hf).
  exists b0, b1, b2, mn, m, c, q. split; [exact Ed|]. split; [exact Hf|].
  rewrite Hg, L2, L1, L0, U, U0, <- !app_assoc. reflexivity.
Qed.
End Log.
