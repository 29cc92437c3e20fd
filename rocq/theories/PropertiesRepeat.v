(** C101: a 6502 with nothing but RAM and ROM on its bus stops or repeats
    itself, and what repeats once repeats for ever. *)
From Coq Require Import Lia.
From Verif Require Import Base Arith ModelMap ModelStep ModelRegs6502 ModelCpu6502 ModelRun6502
  SpecMap ProofMap Link6502 ProofRun6502 ProofBus SpecRepeat ProofRepeat Demo6502.
From Verif Require Import Spec6502.

Local Open Scope nat_scope.

(** ** What repeats once repeats for ever *)
Section Round.
Context {D : Type} `{Device D}.
Implicit Type cpu : mos6502 D.

Lemma rounds p k t cpu : steps p k t cpu cpu -> forall q, steps p (q * k) (q * t) cpu cpu.
Proof. intros R. induction q as [|q IH]; [constructor|]. cbn [Nat.mul]. exact (steps_app p k t cpu cpu R _ _ _ IH). Qed.

Lemma steps_split p i j : forall t cpu cpu', steps p (i + j) t cpu cpu' ->
  exists ti tj s, t = ti + tj /\ steps p i ti cpu s /\ steps p j tj s cpu'.
Proof.
  induction i as [|i IH]; cbn [Nat.add]; intros t cpu cpu' R.
  - exists 0, t, cpu. split; [reflexivity|]. split; [constructor|exact R].
  - inversion R as [|k t' c cpu0 cpu1 cpu2 Es R']; subst. destruct (IH _ _ _ R') as (ti & tj & s & -> & A & B).
    exists (c + ti), tj, s. split; [lia|]. split; [econstructor; eassumption|exact B].
Qed.

(** Having come back to a state, the machine goes through the same states
    again and again: it is never in another, however long it goes on. *)
Theorem C101_no_new_states : forall p k t cpu, steps p k t cpu cpu -> 0 < k ->
  forall n, exists s, after p n cpu s /\ after p (n mod k) cpu s.
Proof.
  intros p k t cpu R Hk n. pose proof (Nat.div_mod n k ltac:(lia)) as E. pose proof (Nat.mod_upper_bound n k ltac:(lia)) as U.
  set (q := n / k) in *. set (r := n mod k) in *.
  replace k with (r + (k - r)) in R by lia. destruct (steps_split p _ _ _ _ _ R) as (t1 & t2 & s & -> & A & B).
  replace (r + (k - r)) with k in R by lia.
  exists s. split; [|exists t1; exact A]. exists (q * (t1 + t2) + t1). rewrite E, (Nat.mul_comm k q).
  exact (steps_app p _ _ _ _ (rounds p _ _ cpu R q) _ _ _ A).
Qed.

(** It never panics. *)
Theorem C101_never_stops : forall p k t cpu, steps p k t cpu cpu -> 0 < k -> forall n, ~ stops p n cpu.
Proof.
  intros p k t cpu R Hk n (s & [ts A] & P).
  destruct (C101_no_new_states p k t cpu R Hk (S n)) as (s' & [t' B] & _).
  replace (S n) with (n + 1) in B by lia. destruct (steps_split p _ _ _ _ _ B) as (t1 & t2 & s1 & _ & B1 & B2).
  destruct (steps_det p _ _ _ _ A _ _ B1) as [_ <-]. inversion B2; subst. congruence.
Qed.

(** Running it for whole rounds more changes nothing. *)
Theorem C101_run_repeats : forall p k t cpu, steps p k t cpu cpu -> 0 < k ->
  forall n, run p cpu n = run p cpu (n mod t) /\ exists cpu', run p cpu n = Ok (Ready cpu').
Proof.
  intros p k t cpu R Hk n. pose proof (steps_cycles _ _ _ _ _ R) as Ht. split.
  - pose proof (Nat.div_mod n t ltac:(lia)) as E. rewrite !run_go. rewrite E at 1.
    rewrite (go_steps p _ _ _ _ (rounds p k t cpu R (n / t)) (t * (n / t) + n mod t)) by nia.
    replace (t * (n / t) + n mod t - n / t * t) with (n mod t) by nia. reflexivity.
  - destruct (run p cpu n) as [[r s|s]|] eqn:E.
    + destruct (run_never_notready _ _ _ _ _ E).
    + exists s. reflexivity.
    + apply run_panic_iff in E. destruct E as (i & ti & s & A & _ & P).
      destruct (C101_never_stops p k t cpu R Hk i). exists s. split; [exists ti; exact A|exact P].
Qed.
End Round.

(** ** There are only finitely many states *)

#[local] Opaque below Nat.pow.

(** The memories that differ from a memory in what can be written. *)
Definition memories (d : memory) : list memory :=
  match mem_kind d with
  | ReadOnly => [d]
  | ReadWrite => map (mkMemory ReadWrite (start_address d) (stop_address d)) (words (below 256) (length (mem_inner d)))
  end.
Fixpoint maps (m : address_map memory) : list (address_map memory) :=
  match m with
  | [] => [[]]
  | e :: m' => flat_map (fun d => map (cons (mkEntry (range_lo e) (range_hi e) d)) (maps m')) (memories (device e))
  end.

Lemma length_maps m : length (maps m) = 256 ^ writable_bytes m.
Proof.
  induction m as [|e m IH]; [reflexivity|]. cbn [maps writable_bytes].
  rewrite (length_flat_const _ (256 ^ writable_bytes m)) by (intros d _; rewrite map_length; exact IH).
  rewrite Nat.pow_add_r. f_equal. unfold memories. destruct (mem_kind (device e)); [|reflexivity].
  rewrite map_length, length_words, length_below. reflexivity.
Qed.

Lemma in_memories d : Forall u8 (mem_inner d) -> In d (memories d).
Proof.
  intros F. unfold memories. destruct d as [k a b l]. cbn [mem_kind mem_inner start_address stop_address] in *. destruct k; [|left; reflexivity].
  apply in_map. apply in_words. intros v Hv. rewrite Forall_forall in F. specialize (F v Hv). apply in_below. unfold u8 in F. lia.
Qed.

Lemma in_maps m : Forall region_ok m -> In m (maps m).
Proof.
  induction m as [|[lo hi d] m IH]; intros F; [left; reflexivity|]. inversion F as [|e l (_ & _ & _ & Fd) F']; subst.
  cbn [maps device range_lo range_hi]. apply in_flat_map. exists d. split; [exact (in_memories d Fd)|]. apply in_map. exact (IH F').
Qed.

(** A write changes nothing else. *)
Lemma maps_app l1 : forall e e' l2, range_lo e' = range_lo e -> range_hi e' = range_hi e -> memories (device e') = memories (device e) ->
  maps (l1 ++ e' :: l2) = maps (l1 ++ e :: l2).
Proof.
  induction l1 as [|x l1 IH]; intros e e' l2 A B C; cbn [app maps].
  - rewrite A, B, C. reflexivity.
  - rewrite (IH e e' l2 A B C). reflexivity.
Qed.
Lemma maps_write p m a v m' w : plain_map m -> u8 v -> am_write p m a v = Ok (m', WOk w) -> maps m' = maps m.
Proof.
  intros Hp Hv Hw. destruct (plain_write_shape p m a v m' w Hp Hv Hw) as (l1 & e & l2 & d' & -> & Hc & Hk & -> & Hdw & _ & He).
  apply maps_app; [reflexivity|reflexivity|]. cbn [device].
  destruct (region_write p e a v He Hc Hv Hk) as (d & Ed & K1 & K2 & K3 & K4 & _). rewrite Hdw in Ed. injection Ed as <-.
  unfold memories. rewrite K1, K2, K3, K4, Hk. reflexivity.
Qed.

Definition like (m0 m : address_map memory) : Prop := plain_with (fun _ => False) m /\ maps m = maps m0.
Lemma like_bus p m0 : ram_bus p (like m0) (fun _ => False).
Proof.
  destruct (plain_ram_bus p (fun _ => False)) as (A & B & C). split; [|split].
  - intros m a [Hm _]. exact (A m a Hm).
  - intros m a v _ _ [].
  - intros m a v m' w [Hm E] Ha Hv Hw. destruct (C m a v m' w Hm Ha Hv Hw) as [Hm' F]. split; [|exact F]. split; [exact Hm'|].
    rewrite <- E. exact (maps_write p m a v m' w (proj1 Hm) Hv Hw).
Qed.

(** The status registers, and all machines. *)
Definition status_of_list (w : list bool) : processor_status :=
  match w with
  | [a; b; c; d; e; f; g; h] => mkPs a b c d e f g h
  | _ => ps_default
  end.
Definition machines (m0 : address_map memory) : list (mos6502 memory) :=
  map (fun '(m, (w, (pc, s))) =>
    match w with [a; x; y; sp] => mkMos6502 m a x y sp pc (status_of_list s) | _ => mkMos6502 m 0 0 0 0 pc (status_of_list s) end)
    (list_prod (maps m0) (list_prod (words (below 256) 4) (list_prod (below (2 ^ 16)) (words [true; false] 8)))).

Lemma length_machines m0 : Z.of_nat (length (machines m0)) = states m0.
Proof.
  unfold machines, states. rewrite map_length, !prod_length, length_maps, !length_words, !length_below.
  rewrite !Nat2Z.inj_mul, !Nat2Z.inj_pow. change (Z.of_nat (length [true; false])) with 2%Z.
  change (Z.of_nat 256) with 256%Z. change (Z.of_nat 2) with 2%Z. change (Z.of_nat 16) with 16%Z. change (Z.of_nat 4) with 4%Z. change (Z.of_nat 8) with 8%Z.
  set (q := (256 ^ Z.of_nat (writable_bytes m0))%Z). lia.
Qed.

Lemma in_machines m0 (cpu : mos6502 memory) : like m0 (amap cpu) -> regs_ok (regs_of cpu) -> In cpu (machines m0).
Proof.
  intros [[[_ F] _] E] (HA & HX & HY & HS & HP). destruct cpu as [m a x y sp pc [c0 c1 c2 c3 c4 c5 c6 c7]].
  cbn [amap regs_of rA rX rY rS rPC reg_acc reg_x reg_y reg_sp reg_pc] in *.
  unfold machines. apply in_map_iff.
  exists (m, ([a; x; y; sp], (pc, [c0; c1; c2; c3; c4; c5; c6; c7]))). split; [reflexivity|].
  apply in_prod; [rewrite <- E; exact (in_maps m F)|]. apply in_prod; [|apply in_prod].
  - apply (in_words (below 256) [a; x; y; sp]). intros v Hv. apply in_below. unfold u8 in *. cbn in Hv.
    
    destruct Hv as [<-|[<-|[<-|[<-|[]]]]]; lia.
  - apply in_below. rewrite Nat2Z.inj_pow. unfold u16 in HP. change (Z.of_nat 2 ^ Z.of_nat 16)%Z with 65536%Z. lia.
  - apply (in_words [true; false] [c0; c1; c2; c3; c4; c5; c6; c7]). intros [] _; [left|right; left]; reflexivity.
Qed.

Lemma machine_eq_dec : forall a b : mos6502 memory, {a = b} + {a <> b}.
Proof. repeat (decide equality || apply Z.eq_dec). Qed.

(** The first [n] instructions, unless the machine stops before. *)
Lemma trace p n : forall cpu : mos6502 memory, (exists k, k < n /\ stops p k cpu) \/
  exists l, length l = S n /\ forall i s, nth_error l i = Some s -> after p i cpu s.
Proof.
  induction n as [|n IH]; intros cpu.
  - right. exists [cpu]. split; [reflexivity|]. intros [|[|i]] s E; try discriminate. injection E as <-. exists 0. constructor.
  - destruct (observed_step p cpu) as [[c cpu1]|] eqn:Es.
    + destruct (IH cpu1) as [(k & Hk & s & [t A] & P)|(l & Hl & A)].
      * left. exists (S k). split; [lia|]. exists s. split; [|exact P]. exists (c + t). econstructor; eassumption.
      * right. exists (cpu :: l). split; [cbn; lia|]. intros [|i] s E.
        -- injection E as <-. exists 0. constructor.
        -- destruct (A i s E) as [t B]. exists (c + t). econstructor; eassumption.
    + left. exists 0. split; [lia|]. exists cpu. split; [exists 0; constructor|exact Es].
Qed.

(** A machine with only RAM and ROM panics, or comes back to a state it was in
    before, within as many instructions as it has states. *)
Theorem C101_stops_or_repeats : forall p (cpu : mos6502 memory), plain_map (amap cpu) -> regs_ok (regs_of cpu) ->
  (exists k, (Z.of_nat k < states (amap cpu))%Z /\ stops p k cpu) \/
  (exists i k t cpu', (Z.of_nat (i + k) <= states (amap cpu))%Z /\ 0 < k /\ after p i cpu cpu' /\ steps p k t cpu' cpu').
Proof.
  intros p cpu Hp Hr. assert (Hl : like (amap cpu) (amap cpu)).
  { split; [|reflexivity]. split; [exact Hp|intros a []]. }
  rewrite <- length_machines. set (all := machines (amap cpu)). set (n := length all).
  destruct (trace p n cpu) as [(k & Hk & St)|(l & Hn & A)].
  - left. exists k. split; [lia|exact St].
  - right. assert (I : incl l all).
    { intros s Hs. destruct (In_nth_error l s Hs) as [i Ei]. destruct (A i s Ei) as [t R].
      destruct (steps_bus_inv p _ _ (like_bus p (amap cpu)) _ _ _ _ R Hl Hr) as [L' R']. exact (in_machines _ s L' R'). }
    assert (N : ~ NoDup l). { intros N. pose proof (NoDup_incl_length N I). unfold n in Hn. lia. }
    destruct (twice machine_eq_dec l N) as (s & l1 & l2 & l3 & ->).
    rewrite !app_length in Hn. cbn [length] in Hn. rewrite app_length in Hn. cbn [length] in Hn.
    assert (A1 : after p (length l1) cpu s).
    { apply A. rewrite nth_error_app2, Nat.sub_diag by lia. reflexivity. }
    assert (A2 : after p (length l1 + S (length l2)) cpu s).
    { apply A. rewrite nth_error_app2 by lia. replace (length l1 + S (length l2) - length l1) with (S (length l2)) by lia.
      cbn [nth_error]. rewrite nth_error_app2, Nat.sub_diag by lia. reflexivity. }
    destruct A2 as [t2 A2]. destruct (steps_split p _ _ _ _ _ A2) as (ti & tj & s' & _ & B1 & B2).
    destruct A1 as [t1 A1]. destruct (steps_det p _ _ _ _ A1 _ _ B1) as [_ <-].
    exists (length l1), (S (length l2)), tj, s. split; [lia|]. split; [lia|]. split; [exists t1; exact A1|exact B2].
Qed.

(** So a program that has not stopped within as many instructions as the
    machine has states never stops. *)
Corollary C101_stops_soon_or_never : forall p (cpu : mos6502 memory), plain_map (amap cpu) -> regs_ok (regs_of cpu) ->
  (forall k, (Z.of_nat k < states (amap cpu))%Z -> ~ stops p k cpu) -> forall n, ~ stops p n cpu.
Proof.
  intros p cpu Hp Hr Hn n Hs. destruct (C101_stops_or_repeats p cpu Hp Hr) as [(k & Hk & St)|(i & k & t & s & Hb & Hk & [ti A] & R)].
  - exact (Hn k Hk St).
  - destruct (Nat.lt_ge_cases n i) as [L|L]; [apply (Hn n); [lia|exact Hs]|].
    destruct Hs as (s' & [tn B] & P). replace n with (i + (n - i)) in B by lia.
    destruct (steps_split p _ _ _ _ _ B) as (t1 & t2 & s1 & _ & B1 & B2).
    destruct (steps_det p _ _ _ _ A _ _ B1) as [_ <-].
    apply (C101_never_stops p k t s R Hk (n - i)). exists s'. split; [exists t2; exact B2|exact P].
Qed.

Print Assumptions C101_no_new_states.
Print Assumptions C101_never_stops.
Print Assumptions C101_run_repeats.
Print Assumptions C101_stops_or_repeats.
Print Assumptions C101_stops_soon_or_never.

(** The hypotheses are met: EOR #$FF / STA $10 / JMP $8000 does not come back to
    its first state (the flags differ), but after two instructions it is in a
    state it comes back to six instructions and 16 cycles later. *)
Definition toggle : mos6502 memory := machine [] [0x49; 0xff; 0x85; 0x10; 0x4c; 0x00; 0x80]%Z 0 0 0 0xff ps_default.
Fixpoint go_on (p : profile) (k : nat) (cpu : mos6502 memory) : res (nat * mos6502 memory) :=
  match k with
  | O => Ok (0, cpu)
  | S k' => do! ' (c, s) <- observed_step p cpu ; do! ' (t, s') <- go_on p k' s ; Ok (c + t, s')
  end.
Lemma go_on_steps p k : forall cpu t s, go_on p k cpu = Ok (t, s) -> steps p k t cpu s.
Proof.
  induction k as [|k IH]; cbn [go_on]; intros cpu t s E.
  - injection E as <- <-. constructor.
  - destruct (observed_step p cpu) as [[c s1]|] eqn:Es; cbn [bind] in E; [|discriminate].
    destruct (go_on p k s1) as [[t' s']|] eqn:Eg; cbn [bind] in E; [|discriminate]. injection E as <- <-.
    econstructor; [exact Es|exact (IH _ _ _ Eg)].
Qed.
Definition toggled : mos6502 memory := match go_on Debug 2 toggle with Ok (_, s) => s | Panic => toggle end.
Example C101_case_repeats : plain_map (amap toggle) /\ regs_ok (regs_of toggle) /\ after Debug 2 toggle toggled /\
  toggled <> toggle /\ steps Debug 6 16 toggled toggled /\ run Debug toggled 1600 = Ok (Ready toggled).
Proof.
  destruct (machine_plain [] [0x49; 0xff; 0x85; 0x10; 0x4c; 0x00; 0x80]%Z 0 0 0 0xff ps_default eq_refl) as [P R].
  assert (S6 : steps Debug 6 16 toggled toggled) by (apply go_on_steps; vm_compute; reflexivity).
  split; [exact P|]. split; [exact R|]. split; [exists 5; apply go_on_steps; vm_compute; reflexivity|].
  split; [intros E; apply (f_equal reg_acc) in E; vm_compute in E; discriminate|]. split; [exact S6|].
  rewrite (proj1 (C101_run_repeats Debug 6 16 toggled S6 ltac:(lia) 1600)). reflexivity.
Qed.
Example C101_case_stops : stops Debug 1 (machine [] [0xea; 0x02]%Z 0 0 0 0xff ps_default).
Proof.
  destruct (go_on Debug 1 (machine [] [0xea; 0x02]%Z 0 0 0 0xff ps_default)) as [[t s]|] eqn:E; [|vm_compute in E; discriminate].
  exists s. split; [exists t; exact (go_on_steps _ _ _ _ _ E)|].
  replace s with (match go_on Debug 1 (machine [] [0xea; 0x02]%Z 0 0 0 0xff ps_default) with Ok (_, s) => s | Panic => s end) by (rewrite E; reflexivity).
  vm_compute. reflexivity.
Qed.
(** 1 KiB of RAM. *)
Example C101_case_states : states (amap toggle) = (2 ^ 56 * 256 ^ 1024)%Z.
Proof. vm_compute. reflexivity. Qed.
