(** Properties C66-C68: what an instruction and a run do on the bus. *)
From Verif Require Import Base Arith ModelMap ModelStep ModelRegs6502 ModelCpu6502 ModelOperand ModelIsa6502
  ModelRun6502 ModelIo ModelBus Link6502 ProofBus ProofBusStep ProofBusRun ProofBusMap ProofBusLog ProofReplay.
From Verif Require Import Spec6502 SpecBus SpecUse.

(** ** C66: the reads and writes of one instruction *)

(** One call of [next] on any bus, with any history: exactly the reads of the
    specification in its order, each answer used as the specification uses it,
    then the stores in order. Panics included. *)
Theorem C66_next_on_any_bus : forall S (b : bus S) p (cpu : core) s,
  byte_bus b -> regs_ok (regs_of cpu) ->
  (do! ' (mops, (cpu', s')) <- next_bus b p (cpu, s) ; Ok (ops_cycles mops, regs_of cpu', s'))
  = bus_step b p (regs_of cpu) s.
Proof. intros S b p cpu s Hb Hr. exact (next_bus_spec b Hb p cpu s Hr). Qed.

(** With an address map as its bus this is the [next] of the other theorems,
    for every machine and every map, panicking ones included. *)
Theorem C66_map_is_a_bus : forall D (H : Device D) p (cpu : mos6502 D),
  next p cpu =
  (do! ' (mops, (c, m)) <- next_bus (map_bus p) p (core_of cpu, amap cpu) ;
   Ok (mops, cpu_with (regs_of c) m)).
Proof.
  intros D H p cpu. rewrite next_map.
  destruct (next_bus (map_bus p) p (core_of cpu, amap cpu)) as [[mops [c m]]|]; reflexivity.
Qed.

(** The accesses of an instruction as a list. *)
Theorem C66_accesses : forall S (b : bus S) p (cpu : core) s l mops cpu' s' l',
  byte_bus b -> regs_ok (regs_of cpu) ->
  next_bus (watched b) p (cpu, (s, l)) = Ok (mops, (cpu', (s', l'))) ->
  exists b0 b1 b2 mn m c q stores,
    decode b0 = Some (mn, m, c) /\
    map fst q = reads_made mn m (regs_of cpu) b1 b2 (nth 0 (map snd q) 0) (nth 1 (map snd q) 0) /\
    l' = l ++ accesses (regs_of cpu) b0 b1 b2 q stores /\
    exists e s1, bus_effect (watched b) p (regs_of cpu) (s, l) = Ok (e, s1) /\ stores = e_stores e.
Proof.
  intros S b p cpu s l mops cpu' s' l' Hb Hr En.
  pose proof (next_bus_spec (watched b) (watched_bytes b Hb) p cpu (s, l) Hr) as E.
  rewrite En in E. cbn [bind] in E. unfold bus_step, after in E.
  destruct (bus_effect (watched b) p (regs_of cpu) (s, l)) as [[e [s1 l1]]|] eqn:Ee; [|discriminate].
  destruct (bus_store_all (watched b) (e_stores e) (s1, l1)) as [[u [s2 l2]]|] eqn:Es; [|discriminate].
  injection E as _ _ -> ->.
  destruct (effect_log b p _ _ _ _ _ _ Hb Hr Ee) as (b0 & b1 & b2 & mn & m & c & q & Hd & Hq & Hl).
  apply store_log in Es.
  exists b0, b1, b2, mn, m, c, q, (e_stores e). split; [exact Hd|]. split; [exact Hq|]. split.
  - rewrite Es, Hl. unfold accesses, rds, wrs. rewrite <- !app_assoc. reflexivity.
  - exists e, (s1, l1). auto.
Qed.

(** The watched bus behaves as the bus itself. *)
Theorem C66_watching : forall S (b : bus S) p (cpu : core) s l,
  next_bus b p (cpu, s) =
  (do! ' (mops, (cpu', (s', _))) <- next_bus (watched b) p (cpu, (s, l)) ; Ok (mops, (cpu', s'))).
Proof.
  intros S b p cpu s l. unfold next_bus.
  pose proof (watched_answer b (generate_next p cpu) s l) as E.
  destruct (answer (watched b) (generate_next p cpu) (s, l)) as [[mops [s1 l1]]|]; rewrite E; cbn [bind];
    [|reflexivity].
  destruct (operations_into_cycles mops) as [cs|]; cbn [bind]; [|reflexivity].
  rewrite !fold_bus. destruct (foldM (reg_exec p) (concat cs) cpu) as [c|]; cbn [bind]; [|reflexivity].
  generalize (flat_map ModelTrace.bus_writes (concat cs)). intros w. revert s1 l1 E.
  assert (G : forall w s1 l1,
    (do! ' (_, s') <- bus_store_all b w s1 ; Ok s') =
    (do! ' (_, (s', _)) <- bus_store_all (watched b) w (s1, l1) ; Ok s')).
  { clear. induction w as [|[a v] w IH]; intros s1 l1; [reflexivity|].
    cbn [bus_store_all]. unfold after, tell. cbn [watched b_write].
    destruct (b_write b s1 a v) as [s2|]; [apply IH|reflexivity]. }
  intros s1 l1 _. specialize (G w s1 l1).
  destruct (bus_store_all b w s1) as [[u s']|];
    destruct (bus_store_all (watched b) w (s1, l1)) as [[u' [s2 l2]]|]; cbn [bind] in *; congruence.
Qed.

(** Between three and six reads. *)
Definition is_read (x : access) : bool := match x with Rd _ _ => true | Wr _ _ => false end.
Theorem C66_three_to_six_reads : forall S (b : bus S) p (cpu : core) s mops cpu' s' l',
  byte_bus b -> regs_ok (regs_of cpu) ->
  next_bus (watched b) p (cpu, (s, [])) = Ok (mops, (cpu', (s', l'))) ->
  (3 <= length (filter is_read l') <= 6)%nat.
Proof.
  intros S b p cpu s mops cpu' s' l' Hb Hr En.
  destruct (C66_accesses _ _ _ _ _ _ _ _ _ _ Hb Hr En)
    as (b0 & b1 & b2 & mn & m & c & q & st & _ & Hq & Hl & _).
  cbn [app] in Hl. rewrite Hl. unfold accesses. rewrite !filter_app, !app_length. cbn [filter is_read length].
  assert (F1 : forall q, length (filter is_read (map (fun av : Z * Z => Rd (fst av) (snd av)) q)) = length q).
  { clear. induction q as [|x q IH]; cbn; [reflexivity|]. rewrite IH. reflexivity. }
  assert (F2 : forall q, length (filter is_read (map (fun av : Z * Z => Wr (fst av) (snd av)) q)) = 0%nat).
  { clear. induction q as [|x q IH]; cbn; [reflexivity|]. exact IH. }
  rewrite F1, F2. rewrite <- (map_length fst q), Hq.
  generalize (nth 0 (map snd q) 0), (nth 1 (map snd q) 0). intros lo hi.
  destruct mn; cbn [reads_made length]; try lia; destruct m; cbn [in_memory pointer_reads app length]; lia.
Qed.

(** A reset reads the two bytes of the reset vector, low byte first, and
    nothing else. *)
Theorem C66_reset : forall S (b : bus S) p s,
  reset_bus b p s =
  (do! ' (lo, s1) <- b_read b s 0xfffc ;
   do! ' (hi, s2) <- b_read b s1 0xfffd ;
   Ok (NotReady 5 (cpu_with (mkRegs 0 0 0 0xff (word lo hi) initial_status) []), s2)).
Proof. reflexivity. Qed.

(** ** C67: a bus is seen only through the answers it gives *)
Lemma follows_app {S} (b : bus S) : forall l1 s s1 l2 s2,
  follows b s l1 s1 -> follows b s1 l2 s2 -> follows b s (l1 ++ l2) s2.
Proof. induction 1; cbn [app]; intros F; [exact F| |]; econstructor; eauto. Qed.

Lemma answer_follows {S} (b : bus S) {A} (x : io A) : forall s l a s' l',
  answer (watched b) x (s, l) = Ok (a, (s', l')) ->
  exists acc, l' = l ++ acc /\ follows b s acc s' /\
    forall S2 (b2 : bus S2) t t', follows b2 t acc t' -> answer b2 x t = Ok (a, t').
Proof.
  induction x as [v| |addr k IH]; intros s l a s' l' E; cbn [answer] in E.
  - injection E as <- <- <-. exists []. rewrite app_nil_r. split; [reflexivity|]. split; [constructor|].
    intros S2 b2 t t' F. inversion F; subst. reflexivity.
  - discriminate.
  - cbn [watched b_read] in E. destruct (b_read b s addr) as [[v s1]|] eqn:Er; cbn [bind] in E; [|discriminate].
    destruct (IH v _ _ _ _ _ E) as (acc & -> & F & G).
    exists (Rd addr v :: acc). rewrite <- app_assoc. split; [reflexivity|]. split; [econstructor; eassumption|].
    intros S2 b2 t t' F2. inversion F2 as [|t0 a0 v0 t1 l0 t2 Hrd Hf|]; subst. cbn [answer]. rewrite Hrd. cbn [bind]. eapply G. eassumption.
Qed.

Lemma store_follows {S} (b : bus S) : forall w s s',
  bus_store_all b w s = Ok (tt, s') <-> follows b s (wrs w) s'.
Proof.
  induction w as [|[a v] w IH]; intros s s'; cbn [bus_store_all wrs map fst snd].
  - split; [intros [= <-]; constructor|]. intros F. inversion F; subst. reflexivity.
  - unfold after, tell. split.
    + destruct (b_write b s a v) as [s1|] eqn:E; [|discriminate]. intros F. econstructor; [exact E|].
      apply IH. exact F.
    + intros F. inversion F as [| |t0 a0 v0 t1 l0 t2 Hw Hf]; subst. rewrite Hw. apply IH. assumption.
Qed.

(** If an instruction makes the accesses [acc] on one bus, it makes the same
    accesses with the same result on every bus that answers them alike,
    whatever else that bus contains. *)
Theorem C67_only_answers_matter : forall S1 (b1 : bus S1) S2 (b2 : bus S2) p (cpu : core) s l mops cpu' s' l',
  next_bus (watched b1) p (cpu, (s, l)) = Ok (mops, (cpu', (s', l'))) ->
  exists acc, l' = l ++ acc /\ follows b1 s acc s' /\
    forall t t', follows b2 t acc t' -> next_bus b2 p (cpu, t) = Ok (mops, (cpu', t')).
Proof.
  intros S1 b1 S2 b2 p cpu s l mops cpu' s' l' E. unfold next_bus in E.
  destruct (answer (watched b1) (generate_next p cpu) (s, l)) as [[m [s1 l1]]|] eqn:Ea; cbn [bind] in E;
    [|discriminate].
  destruct (operations_into_cycles m) as [cs|] eqn:Ec; cbn [bind] in E; [|discriminate].
  rewrite fold_bus in E.
  destruct (foldM (reg_exec p) (concat cs) cpu) as [c|] eqn:Ef; cbn [bind] in E; [|discriminate].
  set (w := flat_map ModelTrace.bus_writes (concat cs)) in *.
  destruct (bus_store_all (watched b1) w (s1, l1)) as [[[] [s2 l2]]|] eqn:Es; cbn [bind] in E; [|discriminate].
  injection E as <- <- <- <-.
  destruct (answer_follows _ _ _ _ _ _ _ Ea) as (acc & -> & F & G).
  assert (Hl := store_log _ _ _ _ _ _ _ Es).
  assert (Fs : follows b1 s1 (wrs w) s2).
  { clear - Es. revert Es. generalize (l ++ acc). revert s1. generalize w. clear.
    induction w as [|[a v] w IH]; intros s1 l0 E; cbn [bus_store_all wrs map fst snd] in *.
    - injection E as <- _. constructor.
    - unfold after, tell in E. cbn [watched b_write] in E.
      destruct (b_write b1 s1 a v) as [s3|] eqn:Ew; [|discriminate].
      econstructor; [exact Ew|]. exact (IH _ _ E). }
  exists (acc ++ wrs w). split; [rewrite Hl, <- app_assoc; reflexivity|].
  split; [exact (follows_app _ _ _ _ _ _ F Fs)|].
  intros t t' F2.
  assert (Hsp : exists t1, follows b2 t acc t1 /\ follows b2 t1 (wrs w) t').
  { clear - F2. revert t F2. induction acc as [|x acc IH]; intros t F2; cbn [app] in F2.
    - exists t. split; [constructor|exact F2].
    - inversion F2 as [|t0 a0 v0 t1 l0 t2 Hw Hf|t0 a0 v0 t1 l0 t2 Hw Hf]; subst;
        destruct (IH _ Hf) as (t3 & A & B);
        exists t3; (split; [econstructor; eassumption|exact B]). }
  destruct Hsp as (t1 & A & B). unfold next_bus. rewrite (G _ _ _ _ A). cbn [bind]. rewrite Ec. cbn [bind].
  rewrite fold_bus, Ef. cbn [bind]. fold w. apply store_follows in B. rewrite B. reflexivity.
Qed.

(** A device that is not addressed is not disturbed: [f] is what one device
    shows, [port] its addresses. *)
Theorem C67_device_isolation : forall S (b : bus S) T (f : S -> T) (port : Z -> Prop) p (cpu : core) s mops cpu' s' acc,
  (forall s a v s', ~ port a -> b_read b s a = Ok (v, s') -> f s' = f s) ->
  (forall s a v s', ~ port a -> b_write b s a v = Ok s' -> f s' = f s) ->
  next_bus (watched b) p (cpu, (s, [])) = Ok (mops, (cpu', (s', acc))) ->
  Forall (fun x => ~ port (address_of x)) acc ->
  f s' = f s.
Proof.
  intros S b T f port p cpu s mops cpu' s' acc Hrd Hwr En Hp.
  destruct (C67_only_answers_matter _ _ _ b _ _ _ _ _ _ _ _ En) as (acc' & E & F & _).
  cbn [app] in E. subst acc'. clear En.
  induction F as [s|s a v s1 l s2 Er F IH|s a v s1 l s2 Ew F IH]; [reflexivity| |];
    inversion Hp; subst; rewrite IH by assumption; cbn [address_of] in *; eauto.
Qed.

(** ** C68: [run] on devices that react *)

(** The exact law of a run of any number of cycles on any bus. *)
Theorem C68_run_exact : forall S (b : bus S) p (cpu : core) s n,
  byte_bus b -> regs_ok (regs_of cpu) ->
  run_bus b p cpu s n =
  match bus_run b p n n (regs_of cpu) s with
  | Ok (r, s') => Ok (Ready (cpu_with r []), s')
  | Panic => Panic
  end.
Proof.
  intros S b p cpu s n Hb Hr. rewrite <- (pipe_spec b Hb p n n cpu s (le_n n) Hr). unfold run_bus.
  destruct (bus_pipeline_run b p n (mkBusPipeline s [] cpu cpu)) as [q|]; cbn [bind]; [|reflexivity].
  assert (E : forall c : core, c = cpu_with (regs_of c) []) by (intros c; apply same_regs; reflexivity).
  rewrite <- E. reflexivity.
Qed.

(** At an instruction boundary, on a bus that does not mind being written
    twice, a run is the same as executing the instructions one by one. *)
Theorem C68_settled_partial : forall S (b : bus S) p k (cpu : core) s ms cpu' s',
  byte_bus b -> settled b -> regs_ok (regs_of cpu) ->
  iterate_bus b p k (cpu, s) = Ok (ms, (cpu', s')) ->
  run_bus b p cpu s (list_sum (map ops_cycles ms)) = Ok (Ready cpu', s').
Proof.
  intros S b p k cpu s ms cpu' s' Hb Hs Hr Hi. rewrite C68_run_exact by assumption.
  assert (G : forall fuel, (list_sum (map ops_cycles ms) <= fuel)%nat ->
    bus_run b p fuel (list_sum (map ops_cycles ms)) (regs_of cpu) s = Ok (regs_of cpu', s')).
  { revert cpu s ms cpu' s' Hr Hi. induction k as [|k IH]; intros cpu s ms cpu' s' Hr Hi fuel Hf;
      cbn [iterate_bus] in Hi.
    - injection Hi as <- <- <-. destruct fuel; reflexivity.
    - destruct (next_bus b p (cpu, s)) as [[m [cpu1 s1]]|] eqn:En; cbn [bind] in Hi; [|discriminate].
      destruct (iterate_bus b p k (cpu1, s1)) as [[ms' [cpu2 s2]]|] eqn:Ei; cbn [bind] in Hi; [|discriminate].
      injection Hi as <- <- <-.
      pose proof (next_bus_spec b Hb p cpu s Hr) as E. rewrite En in E. cbn [bind] in E.
      unfold bus_step, after in E.
      destruct (bus_effect b p (regs_of cpu) s) as [[e sa]|] eqn:Ee; [|discriminate].
      destruct (bus_store_all b (e_stores e) sa) as [[[] sb]|] eqn:Es; [|discriminate].
      injection E as E1 E2 E3. subst sb.
      assert (Hr1 : regs_ok (regs_of cpu1)).
      { rewrite E2. exact (proj1 (bus_effect_ok b Hb p _ _ _ _ Hr Ee)). }
      assert (Hpos : (0 < ops_cycles m)%nat).
      { unfold next_bus in En. destruct (answer b (generate_next p cpu) s) as [[mo sx]|]; cbn [bind] in En; [|discriminate].
        destruct (operations_into_cycles mo) as [cs|] eqn:Ec; cbn [bind] in En; [|discriminate].
        destruct (foldM (execute_bus b p) (concat cs) (cpu, sx)); cbn [bind] in En; [|discriminate].
        injection En as <- _. unfold operations_into_cycles in Ec. destruct (ops_cycles mo); [discriminate|lia]. }
      cbn [map] in *. change (list_sum (ops_cycles m :: map ops_cycles ms'))
        with (ops_cycles m + list_sum (map ops_cycles ms'))%nat in *.
      destruct (ops_cycles m) as [|j] eqn:Ej; [lia|]. cbn [Nat.add] in *.
      destruct fuel as [|fuel]; [lia|]. cbn [bus_run]. unfold after. rewrite Ee, Es, <- E1.
      replace (Nat.ltb (Datatypes.S (j + list_sum (map ops_cycles ms'))) (Datatypes.S j)) with false
        by (symmetry; apply Nat.ltb_ge; lia).
      rewrite (Hs _ _ _ _ Es), <- E2.
      replace (Datatypes.S (j + list_sum (map ops_cycles ms')) - Datatypes.S j)%nat
        with (list_sum (map ops_cycles ms')) by lia.
      apply (IH _ _ _ _ _ Hr1 Ei). lia. }
  rewrite (G _ (le_n _)). f_equal. f_equal. f_equal. apply same_regs. reflexivity.
Qed.

(** A machine with a keyboard and a printer: reading 0xd010 takes the oldest
    typed byte (0 if there is none), a byte written to 0xd012 is printed, all
    other addresses hold the program. *)
Definition terminal (program : list Z) : bus (list Z * list Z) :=
  mkBus
    (fun s a =>
       let '(keys, paper) := s in
       if a =? 0xd010 then
         match keys with [] => Ok (0, s) | k :: keys' => Ok (k mod 256, (keys', paper)) end
       else Ok (nth (Z.to_nat a) program 0 mod 256, s))
    (fun s a v =>
       let '(keys, paper) := s in
       if a =? 0xd012 then Ok (keys, paper ++ [v]) else Ok s).
Definition core_at (pc : Z) : core := mkMos6502 [] 0 0 0 0xff pc ps_default.

Lemma terminal_bytes program : byte_bus (terminal program).
Proof.
  intros [keys paper] a v s'. cbn. destruct (a =? 53264).
  - destruct keys as [|k keys]; intros [= <- _]; [unfold u8; lia|apply u8_mod].
  - intros [= <- _]. apply u8_mod.
Qed.

(** LDA 0xd010; STA 0xd012. *)
Definition echo : list Z := [0xad; 0x10; 0xd0; 0x8d; 0x12; 0xd0].

(** The claim that nothing reaches a device before its instruction is
    finished, and then exactly once. *)
Theorem C68_input_lost_refuted :
  ~ (forall S (b : bus S) p (cpu : core) s n cpu' s', byte_bus b -> regs_ok (regs_of cpu) ->
      run_bus b p cpu s n = Ok (Ready cpu', s') -> cpu' = cpu -> s' = s).
Proof.
  intros T.
  assert (E : run_bus (terminal echo) Debug (core_at 0) ([65; 66], []) 1 = Ok (Ready (core_at 0), ([66], [])))
    by (vm_compute; reflexivity).
  specialize (T _ (terminal echo) Debug (core_at 0) _ _ _ _ (terminal_bytes echo)
    (regs_okb_ok (regs_of (core_at 0)) eq_refl) E eq_refl). discriminate.
Qed.

Theorem C68_printed_twice_refuted :
  ~ (forall S (b : bus S) p k (cpu : core) s ms cpu' s', byte_bus b -> regs_ok (regs_of cpu) ->
      iterate_bus b p k (cpu, s) = Ok (ms, (cpu', s')) ->
      run_bus b p cpu s (list_sum (map ops_cycles ms)) = Ok (Ready cpu', s')).
Proof.
  intros T.
  assert (E : exists ms, iterate_bus (terminal echo) Debug 2 (core_at 0, ([65; 66], [])) =
     Ok (ms, (mkMos6502 [] 65 0 0 0xff 6 (reg_ps (core_at 0)), ([66], [65]))) /\ map ops_cycles ms = [4; 4]%nat)
    by (eexists; split; vm_compute; reflexivity).
  destruct E as (ms & E & Hc).
  specialize (T _ (terminal echo) Debug 2%nat (core_at 0) _ _ _ _ (terminal_bytes echo)
    (regs_okb_ok (regs_of (core_at 0)) eq_refl) E). rewrite Hc in T.
  assert (F : match run_bus (terminal echo) Debug (core_at 0) ([65; 66], []) 8 with
              | Ok (_, s) => s | Panic => ([], []) end = ([66], [65; 65])) by (vm_compute; reflexivity).
  change (list_sum [4; 4]%nat) with 8%nat in T. rewrite T in F. discriminate.
Qed.

(** The claim that an instruction fetches its own bytes only. *)
Theorem C69_own_bytes_refuted :
  ~ (forall S (b : bus S) p (cpu : core) s mops cpu' s' acc b0 v rest mn m c,
      byte_bus b -> regs_ok (regs_of cpu) ->
      next_bus (watched b) p (cpu, (s, [])) = Ok (mops, (cpu', (s', acc))) ->
      acc = Rd (reg_pc cpu) b0 :: Rd (reg_pc cpu + 1) v :: rest -> decode b0 = Some (mn, m, c) ->
      1 < length_of m).
Proof.
  intros T.
  assert (E : exists mops cpu' s', next_bus (watched (terminal [0xea])) Debug (core_at 0, (([], []), [])) =
     Ok (mops, (cpu', (s', [Rd 0 0xea; Rd 1 0; Rd 2 0])))) by (do 3 eexists; vm_compute; reflexivity).
  destruct E as (mops & cpu' & s' & E).
  specialize (T _ (terminal [0xea]) Debug (core_at 0) _ _ _ _ _ 0xea 0 [Rd 2 0] Nop Implied 2%nat
    (terminal_bytes _) (regs_okb_ok (regs_of (core_at 0)) eq_refl) E eq_refl eq_refl). cbn in T. discriminate.
Qed.

(** How many of the fetched bytes belong to the instruction. *)
Theorem C69_own_bytes_partial : forall S (b : bus S) p (cpu : core) s mops cpu' s' acc,
  byte_bus b -> regs_ok (regs_of cpu) ->
  next_bus (watched b) p (cpu, (s, [])) = Ok (mops, (cpu', (s', acc))) ->
  exists b0 b1 b2 mn m c rest,
    acc = Rd (reg_pc cpu) b0 :: Rd ((reg_pc cpu + 1) mod 65536) b1 :: Rd ((reg_pc cpu + 2) mod 65536) b2 :: rest /\
    decode b0 = Some (mn, m, c) /\ 1 <= length_of m <= 3.
Proof.
  intros S b p cpu s mops cpu' s' acc Hb Hr En.
  destruct (C66_accesses _ _ _ _ _ _ _ _ _ _ Hb Hr En)
    as (b0 & b1 & b2 & mn & m & c & q & st & Hd & _ & Hl & _).
  cbn [app] in Hl. exists b0, b1, b2, mn, m, c. eexists. split; [exact Hl|]. split; [exact Hd|].
  destruct m; cbn; lia.
Qed.

(** The bytes fetched beyond the instruction are read but have no influence: on
    any bus that answers them otherwise, and everything else alike, the same
    instruction does the same. *)
Lemma parse_own_bytes b0 b1 b2 v1 v2 mn m c : decode b0 = Some (mn, m, c) ->
  (2 <= length_of m -> v1 = b1) -> (3 <= length_of m -> v2 = b2) ->
  parse_instruction b0 v1 v2 = parse_instruction b0 b1 b2.
Proof.
  intros Hd. unfold decode in Hd.
  destruct (find (fun row => fst row =? b0) opcode_table) as [[o d]|] eqn:Ef; [|discriminate].
  apply find_some in Ef. destruct Ef as [Hin He]. cbn [fst] in He. apply Z.eqb_eq in He. subst o.
  assert (d = (mn, m, c)) by congruence. subst d. clear Hd. unfold opcode_table in Hin.
  repeat (destruct Hin as [Hin|Hin];
    [assert (b0 = fst (b0, (mn, m, c))) as -> by reflexivity; rewrite <- Hin; cbn [fst];
     assert (Hm : m = snd (fst (snd (b0, (mn, m, c))))) by reflexivity; rewrite <- Hin in Hm; cbn [fst snd] in Hm;
     subst m; cbn [length_of]; intros H1 H2;
     first [reflexivity | rewrite (H1 ltac:(lia)); reflexivity
           | rewrite (H1 ltac:(lia)), (H2 ltac:(lia)); reflexivity]|]).
  destruct Hin.
Qed.

Theorem C69_bytes_beyond_ignored_partial : forall S (b : bus S) S2 (b' : bus S2) p (cpu : core)
    s mops cpu' s' b0 b1 b2 rest mn m c v1 v2 t t',
  next_bus (watched b) p (cpu, (s, [])) =
    Ok (mops, (cpu', (s', Rd (reg_pc cpu) b0 :: Rd ((reg_pc cpu + 1) mod 65536) b1
                          :: Rd ((reg_pc cpu + 2) mod 65536) b2 :: rest))) ->
  decode b0 = Some (mn, m, c) ->
  (2 <= length_of m -> v1 = b1) -> (3 <= length_of m -> v2 = b2) ->
  follows b' t (Rd (reg_pc cpu) b0 :: Rd ((reg_pc cpu + 1) mod 65536) v1
                :: Rd ((reg_pc cpu + 2) mod 65536) v2 :: rest) t' ->
  next_bus b' p (cpu, t) = Ok (mops, (cpu', t')).
Proof.
  intros S b S2 b' p cpu s mops cpu' s' b0 b1 b2 rest mn m c v1 v2 t t' E Hd H1 H2 F.
  pose proof (parse_own_bytes b0 b1 b2 v1 v2 mn m c Hd H1 H2) as Hp. clear H1 H2 Hd.
  inversion F as [|t0 a0 w0 t1 l0 te R0 F1|]; subst; clear F.
  inversion F1 as [|t0 a0 w0 t2 l0 te R1 F2|]; subst; clear F1.
  inversion F2 as [|t0 a0 w0 t3 l0 te R2 F3|]; subst; clear F2.
  unfold next_bus, generate_next in E |- *. cbn [io_read io_bind answer] in E |- *.
  rewrite R0. cbn [bind].
  cbn [watched b_read] in E. destruct (b_read b s (reg_pc cpu)) as [[x0 s0]|]; cbn [bind] in E; [|discriminate].
  destruct (add_u16 p (reg_pc cpu) 1) as [pc1|] eqn:A1; cbn [io_lift io_read io_bind answer] in E |- *; [|discriminate].
  cbn [watched b_read] in E.
  destruct (b_read b s0 pc1) as [[x1 s1]|]; cbn [bind] in E; [|discriminate].
  destruct (add_u16 p (reg_pc cpu) 2) as [pc2|] eqn:A2; cbn [io_lift io_read io_bind answer] in E |- *; [|discriminate].
  cbn [watched b_read] in E.
  destruct (b_read b s1 pc2) as [[x2 s2]|]; cbn [bind] in E; [|discriminate].
  cbn [app] in E.
  destruct (answer (watched b) (match parse_instruction x0 x1 x2 with
      | Some oper => ModelOpsIo6502.generate_io p oper cpu | None => Abort end)
      (s2, [Rd (reg_pc cpu) x0; Rd pc1 x1; Rd pc2 x2])) as [[mm [s3 l3]]|] eqn:Ea; cbn [bind] in E; [|discriminate].
  destruct (operations_into_cycles mm) as [cs|] eqn:Ec; cbn [bind] in E; [|discriminate].
  rewrite fold_bus in E.
  destruct (foldM (reg_exec p) (concat cs) cpu) as [cp|] eqn:Ef; cbn [bind] in E; [|discriminate].
  set (w := flat_map ModelTrace.bus_writes (concat cs)) in *.
  destruct (bus_store_all (watched b) w (s3, l3)) as [[[] [s4 l4]]|] eqn:Es; cbn [bind] in E; [|discriminate].
  destruct (answer_follows _ _ _ _ _ _ _ Ea) as (acc & -> & _ & G).
  pose proof (store_log _ _ _ _ _ _ _ Es) as Hl.
  assert (mm = mops) by congruence. assert (cp = cpu') by congruence.
  assert (Hacc : l4 = Rd (reg_pc cpu) b0 :: Rd ((reg_pc cpu + 1) mod 65536) b1
                          :: Rd ((reg_pc cpu + 2) mod 65536) b2 :: rest) by congruence.
  rewrite Hl in Hacc. cbn [app] in Hacc.
  assert (x0 = b0) by congruence. assert (x1 = b1) by congruence. assert (x2 = b2) by congruence.
  assert (Hq1 : pc1 = (reg_pc cpu + 1) mod 65536) by congruence.
  assert (Hq2 : pc2 = (reg_pc cpu + 2) mod 65536) by congruence.
  assert (Hr : rest = acc ++ wrs w) by congruence.
  subst mm cp x0 x1 x2. rewrite Hq1, R1. cbn [bind]. rewrite Hq2, R2. cbn [bind]. rewrite Hp.
  subst rest. clear - F3 G Ec Ef.
  assert (Hsp : exists t1, follows b' t3 acc t1 /\ follows b' t1 (wrs w) t').
  { clear - F3. revert t3 F3. induction acc as [|x acc IH]; intros t F2; cbn [app] in F2.
    - exists t. split; [constructor|exact F2].
    - inversion F2 as [|t0 a0 v0 t1 l0 t2 Hw Hf|t0 a0 v0 t1 l0 t2 Hw Hf]; subst;
        destruct (IH _ Hf) as (t3 & A & B);
        exists t3; (split; [econstructor; eassumption|exact B]). }
  destruct Hsp as (ta & A & B). rewrite (G _ _ _ _ A). cbn [bind]. rewrite Ec. cbn [bind].
  rewrite fold_bus, Ef. cbn [bind]. fold w. apply store_follows in B. rewrite B. reflexivity.
Qed.

(** NOP with other bytes behind it. *)
Example C69_nonvacuous_beyond : exists mops cpu' s' t t',
  next_bus (watched (terminal [0xea])) Debug (core_at 0, (([], []), [])) =
    Ok (mops, (cpu', (s', [Rd 0 0xea; Rd 1 0; Rd 2 0]))) /\
  decode 0xea = Some (Nop, Implied, 2%nat) /\
  follows (terminal [0xea; 0x12; 0x34]) t [Rd 0 0xea; Rd 1 0x12; Rd 2 0x34] t' /\
  next_bus (terminal [0xea; 0x12; 0x34]) Debug (core_at 0, t) = Ok (mops, (cpu', t')).
Proof.
  exists (mkOperations 1 2 []), (core_at 1), ([], []), ([], []), ([], []).
  repeat (split; [first [vm_compute; reflexivity
    | repeat (eapply follows_read; [reflexivity|]); constructor]|]). vm_compute. reflexivity.
Qed.

Print Assumptions C66_next_on_any_bus.
Print Assumptions C66_map_is_a_bus.
Print Assumptions C66_accesses.
Print Assumptions C66_watching.
Print Assumptions C66_three_to_six_reads.
Print Assumptions C66_reset.
Print Assumptions C69_own_bytes_refuted.
Print Assumptions C69_own_bytes_partial.
Print Assumptions C69_bytes_beyond_ignored_partial.
Print Assumptions C67_only_answers_matter.
Print Assumptions C67_device_isolation.
Print Assumptions C68_run_exact.
Print Assumptions C68_settled_partial.
Print Assumptions C68_input_lost_refuted.
Print Assumptions C68_printed_twice_refuted.

(** ** Concrete cases *)
Definition accesses_of (program : list Z) (keys : list Z) (cpu : core) : list access :=
  match next_bus (watched (terminal program)) Debug (cpu, ((keys, []), [])) with
  | Ok (_, (_, (_, l))) => l | Panic => [] end.

(** A load takes one key, a store prints and reads nothing further. *)
Example C66_case_echo :
  accesses_of echo [65; 66] (core_at 0) = [Rd 0 0xad; Rd 1 0x10; Rd 2 0xd0; Rd 0xd010 65] /\
  accesses_of echo [65; 66] (core_at 3) = [Rd 3 0x8d; Rd 4 0x12; Rd 5 0xd0; Wr 0xd012 0].
Proof. split; vm_compute; reflexivity. Qed.

(** INC 0xd010 reads once and writes once; LDA (4),Y reads six times; BRK reads
    its vector before it pushes. *)
Example C66_case_more :
  accesses_of [0xee; 0x10; 0xd0] [7; 8] (core_at 0)
    = [Rd 0 0xee; Rd 1 0x10; Rd 2 0xd0; Rd 0xd010 7; Wr 0xd010 8] /\
  accesses_of [0xb1; 0x04; 0; 0; 0x10; 0xd0] [7; 8] (core_at 0)
    = [Rd 0 0xb1; Rd 1 4; Rd 2 0; Rd 4 0x10; Rd 5 0xd0; Rd 0xd010 7] /\
  accesses_of [0] [] (core_at 0)
    = [Rd 0 0; Rd 1 0; Rd 2 0; Rd 0xfffe 0; Rd 0xffff 0; Wr 0x1ff 1; Wr 0x1fe 0; Wr 0x1fd 32].
Proof. repeat split; vm_compute; reflexivity. Qed.

(** A program executed from the keyboard port itself: the fetch alone takes
    a key. *)
Example C66_case_fetch_from_port :
  accesses_of [] [0xea; 1] (core_at 0xd010) = [Rd 0xd010 0xea; Rd 0xd011 0; Rd 0xd012 0].
Proof. vm_compute. reflexivity. Qed.

(** The hypotheses of the isolation theorem hold for the keyboard and an
    instruction that stays away from it. *)
Example C67_case_isolation :
  exists mops cpu' s' acc,
    next_bus (watched (terminal echo)) Debug (core_at 3, (([65], []), [])) = Ok (mops, (cpu', (s', acc))) /\
    Forall (fun x => ~ (address_of x = 0xd010)) acc /\ fst s' = [65].
Proof.
  do 4 eexists. split; [vm_compute; reflexivity|]. split; [|reflexivity].
  repeat constructor; cbn; discriminate.
Qed.

(** Runs of the echo program cycle by cycle: the key is gone after the first
    cycle, it is printed once after the fifth and again after the eighth. *)
Example C68_case_cycles :
  map (fun n => match run_bus (terminal echo) Debug (core_at 0) ([65; 66], []) n with
                | Ok (Ready c, s) => (reg_acc c, reg_pc c, s) | _ => (0, 0, ([], [])) end) [0; 1; 4; 5; 8]%nat
  = [(0, 0, ([65; 66], [])); (0, 0, ([66], [])); (65, 3, ([66], []));
     (65, 3, ([66], [65])); (65, 6, ([66], [65; 65]))].
Proof. vm_compute. reflexivity. Qed.

(** Four runs of one cycle eat four keys and load none. *)
Example C68_case_starved :
  (fix go n c s := match n with
     | O => (reg_acc c, reg_pc c, s)
     | Datatypes.S n' => match run_bus (terminal echo) Debug c s 1 with
                | Ok (Ready c', s') => go n' c' s' | _ => (0, 0, ([], [])) end end)
    4%nat (core_at 0) ([65; 66; 67; 68; 69], []) = (0, 0, ([69], [])).
Proof. vm_compute. reflexivity. Qed.

(** Memory is settled: a list of bytes, addresses outside it read 0. *)
Fixpoint put (n : nat) (v : Z) (m : list Z) : list Z :=
  match m, n with
  | [], _ => []
  | _ :: m', O => v :: m'
  | x :: m', Datatypes.S n' => x :: put n' v m'
  end.
Definition cells : bus (list Z) :=
  mkBus (fun m a => Ok (nth (Z.to_nat a) m 0 mod 256, m)) (fun m a v => Ok (put (Z.to_nat a) v m)).

Lemma put_length n v : forall m, length (put n v m) = length m.
Proof. intros m. revert n. induction m as [|x m IH]; intros [|n]; cbn; auto. Qed.
Lemma put_nth n v : forall m i, nth i (put n v m) 0 = if Nat.eqb i n && Nat.ltb n (length m) then v else nth i m 0.
Proof.
  intros m. revert n. induction m as [|x m IH]; intros n i.
  - cbn [put nth length]. destruct n, (Nat.eqb i _), i; reflexivity.
  - destruct n as [|n], i as [|i]; cbn [put nth length]; try reflexivity. rewrite IH. reflexivity.
Qed.

Example C68_case_settled : settled cells /\ byte_bus cells.
Proof.
  split.
  - set (f := fun (m : list Z) (x : Z * Z) => put (Z.to_nat (fst x)) (snd x) m).
    assert (G : forall l m, bus_store_all cells l m = Ok (tt, fold_left f l m)).
    { induction l as [|[a v] l IH]; intros m; cbn [bus_store_all]; [reflexivity|].
      unfold after, tell. cbn [cells b_write]. apply IH. }
    assert (L : forall l m, length (fold_left f l m) = length m).
    { induction l as [|x l IH]; intros m; cbn [fold_left]; [reflexivity|].
      rewrite IH. apply put_length. }
    assert (N : forall l m1 m2 i, length m1 = length m2 -> 
      (nth i (fold_left f l m1) 0 = nth i (fold_left f l m2) 0) \/
      (nth i (fold_left f l m1) 0 = nth i m1 0 /\ nth i (fold_left f l m2) 0 = nth i m2 0)).
    { induction l as [|[a v] l IH]; intros m1 m2 i E; cbn [fold_left]; [auto|].
      destruct (IH (f m1 (a, v)) (f m2 (a, v)) i) as [H|[H1 H2]].
      - unfold f. rewrite !put_length. exact E.
      - left. exact H.
      - rewrite H1, H2. unfold f. cbn [fst snd]. rewrite !put_nth, E.
        destruct (Nat.eqb i (Z.to_nat a) && Nat.ltb (Z.to_nat a) (length m2)); auto. }
    intros l m u m' E. rewrite G in E. injection E as _ <-. rewrite G. do 2 f_equal.
    apply (nth_ext _ _ 0 0); [rewrite !L; reflexivity|]. intros i _.
    destruct (N l (fold_left f l m) m i (L l m)) as [H|[H _]]; exact H.
  - intros m a v m' E. cbn in E. injection E as <- _. apply u8_mod.
Qed.
