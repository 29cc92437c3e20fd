(** C102: a CHIP-8 machine that asks neither clock nor generator stops or
    repeats itself, and what repeats once repeats for ever. *)
From Coq Require Import Lia.
From Verif Require Import Base Arith ModelMap ModelStep ModelDisplay ModelChip8 ModelOpsChip8 ModelRunChip8.
From Verif Require Import SpecMap Link6502 SpecChip8 SpecChip8Run ProofChip8 ProofChip8Step ProofChip8Reach ProofChip8Run
  SpecLive8 PropertiesLive8 SpecRepeat8 ProofRepeat.

(** ** Machines that look the same do the same *)

Lemma same_step e p c c2 w : env_ok e -> well_formed c -> well_formed c2 -> same_machine c c2 ->
  match step e p c w, step e p c2 w with
  | Ok (c', w'), Ok (c2', w2') => w2' = w' /\ same_machine c' c2'
  | Panic, Panic => True
  | _, _ => False
  end.
Proof.
  intros He W W2 S.
  assert (K : forall a b, well_formed a -> well_formed b -> same_machine a b -> forall a' w', step e p a w = Ok (a', w') ->
    exists b', step e p b w = Ok (b', w') /\ same_machine a' b').
  { intros a b Wa Wb Sab a' w' E. destruct (step_ok_inv e p a w a' w' Wa He E) as (op & f & Hop & Hf & _).
    pose proof (C87_one_instruction e p a b w op He Wa Wb Hop Hf (fun q _ => Sab q)) as X. rewrite E in X.
    destruct (step e p b w) as [[b' w2]|]; [|contradiction]. destruct X as (-> & X1 & X2). exists b'. split; [reflexivity|].
    intros q. destruct (sets8 (observe a) op q) eqn:Eq; [exact (X1 q Eq)|]. destruct (X2 q Eq) as [-> ->]. apply Sab. }
  destruct (step e p c w) as [[c' w']|] eqn:E.
  - destruct (K c c2 W W2 S c' w' E) as (b' & -> & Sb). split; [reflexivity|exact Sb].
  - destruct (step e p c2 w) as [[c2' w']|] eqn:E2; [|exact I].
    destruct (K c2 c W2 W (fun q => eq_sym (S q)) c2' w' E2) as (b' & Eb & _). congruence.
Qed.

Local Open Scope nat_scope.

Lemma unasked_wf e p w n c c' : env_ok e -> unasked e p w n c c' -> well_formed c -> well_formed c'.
Proof. intros He X. induction X as [|n c c1 c2 E X IH]; intros W; [exact W|]. exact (IH (step_wf e p c w c1 w W He E)). Qed.

Lemma unasked_app e p w i c c1 : unasked e p w i c c1 -> forall j c2, unasked e p w j c1 c2 -> unasked e p w (i + j) c c2.
Proof. induction 1 as [|n c c0 c1 E X IH]; intros j c2 Y; [exact Y|]. cbn [Nat.add]. econstructor; [exact E|exact (IH j c2 Y)]. Qed.

Lemma unasked_split e p w i : forall j c c2, unasked e p w (i + j) c c2 -> exists c1, unasked e p w i c c1 /\ unasked e p w j c1 c2.
Proof.
  induction i as [|i IH]; cbn [Nat.add]; intros j c c2 X; [exists c; split; [constructor|exact X]|].
  inversion X as [|n c0 c1 c3 E X']; subst. destruct (IH _ _ _ X') as (s & A & B). exists s. split; [econstructor; eassumption|exact B].
Qed.

Lemma unasked_det e p w n c c1 : unasked e p w n c c1 -> forall c2, unasked e p w n c c2 -> c1 = c2.
Proof.
  induction 1 as [|n c c0 c1 E X IH]; intros c2 Y; inversion Y as [|n' d d1 d2 E' Y']; subst; [reflexivity|].
  rewrite E in E'. injection E' as <-. exact (IH _ Y').
Qed.

Lemma same_unasked e p w n c c' : env_ok e -> unasked e p w n c c' -> forall c2, well_formed c -> well_formed c2 -> same_machine c c2 ->
  exists c2', unasked e p w n c2 c2' /\ same_machine c' c2'.
Proof.
  intros He X. induction X as [c|n c c1 c' E X IH]; intros c2 W W2 S; [exists c2; split; [constructor|exact S]|].
  pose proof (same_step e p c c2 w He W W2 S) as Y. rewrite E in Y.
  destruct (step e p c2 w) as [[c21 w2]|] eqn:E2; [|contradiction]. destruct Y as [-> S1].
  destruct (IH c21 (step_wf e p c w c1 w W He E) (step_wf e p c2 w c21 w W2 He E2) S1) as (c2' & X2 & S2).
  exists c2'. split; [econstructor; eassumption|exact S2].
Qed.

(** ** What repeats once repeats for ever *)

Lemma rounds8 e p w k c c' : env_ok e -> well_formed c -> unasked e p w k c c' -> same_machine c c' ->
  forall q, exists s, unasked e p w (q * k) c s /\ same_machine c s.
Proof.
  intros He W X S. induction q as [|q IH]; [exists c; split; [constructor|intros q; reflexivity]|].
  destruct IH as (s & A & B). cbn [Nat.mul].
  destruct (same_unasked e p w (q * k) c s He A c' W (unasked_wf _ _ _ _ _ _ He X W) S) as (s2 & C & D).
  exists s2. split; [exact (unasked_app _ _ _ _ _ _ X _ _ C)|]. intros x. rewrite (D x). apply B.
Qed.

(** A machine that has come back to a state goes through the same states again
    and again: it is never in another, panics never and never asks. *)
Theorem C102_no_new_states : forall e p w k c c', env_ok e -> well_formed c ->
  unasked e p w k c c' -> same_machine c c' -> 0 < k ->
  forall n, exists s s2, unasked e p w n c s /\ unasked e p w (n mod k) c s2 /\ same_machine s2 s.
Proof.
  intros e p w k c c' He W X S Hk n. pose proof (Nat.div_mod n k ltac:(lia)) as E. pose proof (Nat.mod_upper_bound n k ltac:(lia)) as U.
  set (q := n / k) in *. set (r := n mod k) in *.
  destruct (rounds8 e p w k c c' He W X S q) as (a & A & Sa).
  replace k with (r + (k - r)) in X by lia. destruct (unasked_split e p w r (k - r) c c' X) as (s2 & B & _).
  destruct (same_unasked e p w r c s2 He B a W (unasked_wf _ _ _ _ _ _ He A W) Sa) as (s & C & D).
  exists s, s2. split; [|split; [exact B|exact D]]. rewrite E, (Nat.mul_comm k q). exact (unasked_app _ _ _ _ _ _ A _ _ C).
Qed.

(** An instruction that asks nothing. *)
Lemma quiet_effect e p c w c1 : env_ok e -> well_formed c -> step e p c w = Ok (c1, w) ->
  exists op, operands_ok op /\ fetches p c (encode op) /\ sets_timer (encode op) = false /\
    forall q, match q with PKey | PDelay | PDelayAt | PSound | PSoundAt => true | _ => false end = true -> observe c1 q = observe c q.
Proof.
  intros He W E. destruct (step_ok_inv e p c w c1 w W He E) as (op & f & Hop & Hf & Ee & _ & L).
  exists op. split; [exact Hop|]. split; [exact Hf|]. rewrite (timer_word op Hop). clear E Hf Hop.
  assert (T : mkWorld (S (w_time w)) (w_random w) <> w) by (destruct w as [a b]; cbn; intros X; injection X; lia).
  split.
  - destruct op; try reflexivity; cbn [effect] in Ee; unfold needs in Ee; destruct (has _); try discriminate;
      exfalso; apply T; unfold tick in Ee; congruence.
  - intros q Hq. rewrite (L q). clear L.
    destruct op; cbn [effect] in Ee; unfold needs, done in Ee;
      repeat match type of Ee with (if ?b then _ else _) = _ => destruct b eqn:?; try discriminate end; try discriminate;
      try (exfalso; apply T; unfold tick in Ee; congruence);
      match type of Ee with Some (?g, ?a) = Some (_, ?b) => assert (f = g) as -> by congruence end;
      destruct q; try discriminate Hq; reflexivity.
Qed.

(** Running it, for any number of instructions, succeeds and shows one of those
    states. *)
Theorem C102_run_repeats : forall e p w k c c', env_ok e -> well_formed c ->
  unasked e p w k c c' -> same_machine c c' -> 0 < k ->
  forall n, exists s s2, run e p c n w = Ok (ss_from s, w) /\ unasked e p w (n mod k) c s2 /\ same_machine s2 s.
Proof.
  intros e p w k c c' He W X S Hk n.
  destruct (C102_no_new_states e p w k c c' He W X S Hk n) as (s & s2 & A & B & C).
  exists s, s2. split; [|split; assumption]. clear - He W A. unfold run.
  enough (E : run_loop e p n c c w = Ok (s, w)) by (rewrite E; reflexivity).
  induction A as [c|n c c1 c2 E A IH]; [reflexivity|]. cbn [run_loop].
  destruct (next_step e p c w c1 w E) as (mcs & En). rewrite En. cbn [bind].
  destruct (quiet_effect e p c w c1 He W E) as (op & Hop & Hf & Hq & _).
  rewrite (untimed_next e p c w (encode op) mcs c1 w W He Hf Hq En w). cbn [bind].
  exact (IH (step_wf e p c w c1 w W He E)).
Qed.

(** ** There are only finitely many states *)

#[local] Opaque below Nat.pow.

Definition across (n : nat) (f : Z -> Z) : list Z := map f (below n).
Lemma across_words (n k : nat) (f : Z -> Z) : (forall x, (0 <= x < Z.of_nat n)%Z -> (0 <= f x < Z.of_nat k)%Z) ->
  In (across n f) (words (below k) n).
Proof.
  intros H. assert (L : length (across n f) = n) by (unfold across; rewrite map_length, length_below; reflexivity).
  rewrite <- L at 2. apply in_words. intros a Ha. unfold across in Ha. apply in_map_iff in Ha. destruct Ha as (x & <- & Hx).
  apply in_below, H, below_in, Hx.
Qed.
Lemma across_inj n f g : across n f = across n g -> forall x, (0 <= x < Z.of_nat n)%Z -> f x = g x.
Proof.
  intros E x Hx. apply in_below in Hx. unfold across in E. revert E Hx. generalize (below n). intros l.
  induction l as [|a l IH]; cbn [map In]; intros E Hx; [destruct Hx|].
  destruct Hx as [<-|Hx]; [congruence|apply IH; [congruence|exact Hx]].
Qed.

(** Everything that can change without a question. *)
Definition snapshot (c : chip8) : list Z * (list Z * (list Z * (list Z * (list Z * list Z)))) :=
  let f := observe c in
  ([f PPC; f PI], ([f PSP], (across 15 (fun x => f (PV x)), (across 16 (fun k => f (PStack k)),
    (across (2 ^ 12) (fun a => f (PMem a)), across (2 ^ 11) (fun n => f (PPixel (n mod 64) (n / 64)))))))).
Definition snapshots :=
  list_prod (words (below (2 ^ 16)) 2) (list_prod (words (below 16) 1) (list_prod (words (below (2 ^ 8)) 15)
    (list_prod (words (below (2 ^ 16)) 16) (list_prod (words (below (2 ^ 8)) (2 ^ 12)) (words (below 2) (2 ^ 11)))))).

Lemma length_snapshots : Z.of_nat (length snapshots) = states8.
Proof.
  unfold snapshots, states8. rewrite !prod_length, !length_words, !length_below.
  rewrite !Nat2Z.inj_mul, !Nat2Z.inj_pow. change (Z.of_nat 2) with 2%Z. change (Z.of_nat 16) with (2 ^ 4)%Z. change (Z.of_nat 8) with 8%Z.
  change (Z.of_nat 15) with 15%Z. change (Z.of_nat 1) with 1%Z. change (Z.of_nat 12) with 12%Z. change (Z.of_nat 11) with 11%Z.
  rewrite <- !Z.pow_mul_r by lia. rewrite <- !Z.pow_add_r by lia. f_equal.
Qed.

Lemma in_snapshots c : well_formed c -> In (snapshot c) snapshots.
Proof.
  intros W. unfold snapshot, snapshots.
  pose proof (wf_pc c W) as H1. pose proof (wf_i c W) as H2. pose proof (wf_sp c W) as H3. unfold u16 in H1, H2.
  assert (P16 : Z.of_nat (2 ^ 16) = 65536%Z) by (rewrite Nat2Z.inj_pow; reflexivity).
  assert (P8 : Z.of_nat (2 ^ 8) = 256%Z) by (rewrite Nat2Z.inj_pow; reflexivity).
  repeat apply in_prod.
  - apply (in_words (below (2 ^ 16)) [observe c PPC; observe c PI]). intros a [<-|[<-|[]]]; apply in_below; cbn [observe]; lia.
  - apply (in_words (below 16) [observe c PSP]). intros a [<-|[]]; apply in_below; cbn [observe]; lia.
  - apply across_words. intros x Hx. rewrite P8. exact (observe_v_u8 c x W ltac:(lia)).
  - apply across_words. intros x Hx. rewrite P16. exact (observe_stack_u16 c x W ltac:(lia)).
  - apply across_words. intros x Hx. rewrite P8. exact (observe_mem_u8 c x W).
  - apply across_words. intros x Hx. cbn [observe]. destruct (lit _ _ _); lia.
Qed.

Lemma outside c q : well_formed c ->
  match q with
  | PV x => 0 <= x < 15 | PStack k => 0 <= k < 16 | PMem a => 0 <= a <= 0xfff | PPixel x y => 0 <= x < 64 /\ 0 <= y < 32
  | _ => True
  end%Z \/ observe c q = 0%Z.
Proof.
  intros W. destruct q as [| | |x|k|a|x y| | | | |]; try (left; exact I).
  - destruct (wf_gp c W) as [L _]. destruct (Z.ltb_spec x 0); [right; cbn [observe]; apply item_out; lia|].
    destruct (Z.ltb_spec x 15); [left; lia|]. right. cbn [observe]. apply item_out. lia.
  - destruct (wf_stack c W) as (_ & L & _). destruct (Z.ltb_spec k 0); [right; cbn [observe]; apply item_out; lia|].
    destruct (Z.ltb_spec k 16); [left; lia|]. right. cbn [observe]. apply item_out. lia.
  - destruct (Z.ltb_spec 0xfff a); [right; exact (observe_mem_out c a W H)|].
    destruct (Z.ltb_spec a 0); [right|left; lia]. cbn [observe]. unfold peek.
    destruct (wf_space c W) as ((_ & R) & _). clear - R H0. induction (c8_space c) as [|e m IH]; [reflexivity|].
    apply Forall_cons_iff in R. destruct R as [R Rm]. cbn [am_read].
    assert (key_contains e a = false) as -> by (unfold key_contains; destruct R; lia). exact (IH Rm).
  - destruct (wf_display c W) as (L & F). cbn [observe]. unfold lit.
    destruct (Z.ltb_spec y 0); [right; rewrite (item_out (c8_display c)) by lia; rewrite item_out by (cbn; lia); reflexivity|].
    destruct (Z.ltb_spec y 32); [|right; rewrite (item_out (c8_display c)) by lia; rewrite item_out by (cbn; lia); reflexivity].
    pose proof (item_In (c8_display c) y [] ltac:(lia)) as Hin. rewrite Forall_forall in F. pose proof (F _ Hin) as Lr.
    destruct (Z.ltb_spec x 0); [right; rewrite item_out by lia; reflexivity|].
    destruct (Z.ltb_spec x 64); [left; lia|right; rewrite item_out by lia; reflexivity].
Qed.

(** The rest does not change without a question. *)
Definition untouched (q : part) : bool :=
  match q with PKey | PDelay | PDelayAt | PSound | PSoundAt => true | _ => false end.

Lemma unasked_untouched e p w n c c' : env_ok e -> well_formed c -> unasked e p w n c c' -> forall q, untouched q = true -> observe c' q = observe c q.
Proof.
  intros He W X. revert W. induction X as [c|n c c1 c2 E X IH]; intros W q Hq; [reflexivity|].
  rewrite (IH (step_wf e p c w c1 w W He E) q Hq). destruct (quiet_effect e p c w c1 He W E) as (op & _ & _ & _ & K). exact (K q Hq).
Qed.

Lemma snapshot_same c c2 : well_formed c -> well_formed c2 -> snapshot c = snapshot c2 ->
  (forall q, untouched q = true -> observe c2 q = observe c q) -> same_machine c c2.
Proof.
  intros W W2 E H q. unfold snapshot in E.
  assert (E1 : observe c PPC = observe c2 PPC) by congruence. assert (E2 : observe c PI = observe c2 PI) by congruence.
  assert (E3 : observe c PSP = observe c2 PSP) by congruence.
  pose proof (f_equal (fun x => fst (snd (snd x))) E) as E4. pose proof (f_equal (fun x => fst (snd (snd (snd x)))) E) as E5.
  pose proof (f_equal (fun x => fst (snd (snd (snd (snd x))))) E) as E6. pose proof (f_equal (fun x => snd (snd (snd (snd (snd x))))) E) as E7.
  clear E. cbn [fst snd] in E4, E5, E6, E7.
  assert (E4' := across_inj _ _ _ E4). assert (E5' := across_inj _ _ _ E5). assert (E6' := across_inj _ _ _ E6). assert (E7' := across_inj _ _ _ E7).
  rewrite Nat2Z.inj_pow in E6', E7'. change (Z.of_nat 2 ^ Z.of_nat 12)%Z with 4096%Z in E6'. change (Z.of_nat 2 ^ Z.of_nat 11)%Z with 2048%Z in E7'.
  pose proof (outside c q W) as O1. pose proof (outside c2 q W2) as O2.
  destruct q as [| | |x|k|a|x y| | | | |]; try (symmetry; assumption); try (apply H; reflexivity).
  - destruct O1 as [O1|O1], O2 as [O2|O2]; try (symmetry; apply E4'; lia). congruence.
  - destruct O1 as [O1|O1], O2 as [O2|O2]; try (symmetry; apply E5'; lia). congruence.
  - destruct O1 as [O1|O1], O2 as [O2|O2]; try (symmetry; apply E6'; lia). congruence.
  - assert (K : (0 <= x < 64 /\ 0 <= y < 32)%Z -> observe c2 (PPixel x y) = observe c (PPixel x y)).
    { intros [Hx Hy]. specialize (E7' (64 * y + x)%Z ltac:(lia)). cbn beta in E7'.
      replace ((64 * y + x) mod 64)%Z with x in E7' by lia. replace ((64 * y + x) / 64)%Z with y in E7' by lia. symmetry. exact E7'. }
    destruct O1 as [O1|O1], O2 as [O2|O2]; auto. congruence.
Qed.

Lemma trace8 e p w n : forall c, (exists k c', k < n /\ unasked e p w k c c' /\ (step e p c' w = Panic \/ asks e p w c')) \/
  exists l, length l = S n /\ forall i s, nth_error l i = Some s -> unasked e p w i c s.
Proof.
  induction n as [|n IH]; intros c.
  - right. exists [c]. split; [reflexivity|]. intros [|[|i]] s E; try discriminate. injection E as <-. constructor.
  - assert (Dec : forall w1 w2 : world, {w1 = w2} + {w1 <> w2}) by (repeat decide equality).
    destruct (step e p c w) as [[c1 w1]|] eqn:Es; [destruct (Dec w1 w) as [->|N]|].
    + destruct (IH c1) as [(k & s & Hk & A & P)|(l & Hl & A)].
      * left. exists (S k), s. split; [lia|]. split; [econstructor; eassumption|exact P].
      * right. exists (c :: l). split; [cbn; lia|]. intros [|i] s E; [injection E as <-; constructor|].
        econstructor; [exact Es|exact (A i s E)].
    + left. exists 0, c. split; [lia|]. split; [constructor|]. right. exists c1, w1. split; assumption.
    + left. exists 0, c. split; [lia|]. split; [constructor|]. left. exact Es.
Qed.

Lemma snapshot_eq_dec : forall a b : list Z * (list Z * (list Z * (list Z * (list Z * list Z)))), {a = b} + {a <> b}.
Proof. repeat (apply Z.eq_dec || decide equality). Qed.

(** A machine that is left to itself panics, asks the clock or the generator, or
    comes back to a state it was in before, within as many instructions as it has
    states. *)
Theorem C102_stops_asks_or_repeats : forall e p w c, env_ok e -> well_formed c ->
  (exists k c', (Z.of_nat k < states8)%Z /\ unasked e p w k c c' /\ (step e p c' w = Panic \/ asks e p w c')) \/
  (exists i k c1 c2, (Z.of_nat (i + k) <= states8)%Z /\ 0 < k /\ unasked e p w i c c1 /\ unasked e p w k c1 c2 /\ same_machine c1 c2).
Proof.
  intros e p w c He W.
  assert (B : exists n, Z.of_nat n = states8 /\ forall l, (forall s, In s l -> well_formed s) -> n < length l ->
    exists i k a b, nth_error l i = Some a /\ nth_error l (i + S k) = Some b /\ i + S k < length l /\ snapshot a = snapshot b).
  { exists (length snapshots). split; [exact length_snapshots|]. intros l Hl L.
    exact (pigeons snapshot_eq_dec snapshot snapshots l (fun a Ha => in_snapshots a (Hl a Ha)) L). }
  destruct B as (n & En & B). rewrite <- En. clear En.
  destruct (trace8 e p w n c) as [(k & c' & Hk & A & P)|(l & Hn & A)].
  - left. exists k, c'. split; [lia|]. split; [exact A|exact P].
  - right. assert (Wl : forall i s, nth_error l i = Some s -> well_formed s).
    { intros i s E. exact (unasked_wf _ _ _ _ _ _ He (A i s E) W). }
    destruct (B l) as (i & k & s1 & s2 & F1 & F2 & L & E).
    { intros s Hs. destruct (In_nth_error l s Hs) as [i Ei]. exact (Wl i s Ei). }
    { rewrite Hn. constructor. }
    clear B. assert (B1 := A _ _ F1). assert (B2 := A _ _ F2).
    destruct (unasked_split e p w _ _ _ _ B2) as (s1' & C1 & C2). rewrite <- (unasked_det _ _ _ _ _ _ B1 _ C1) in C2. clear s1' C1.
    exists i, (S k), s1, s2. split; [lia|]. split; [lia|]. split; [exact B1|]. split; [exact C2|].
    exact (snapshot_same s1 s2 (Wl _ _ F1) (Wl _ _ F2) E (unasked_untouched e p w _ s1 s2 He (Wl _ _ F1) C2)).
Qed.

(** ** Cases *)

Fixpoint quietly (n : nat) (c : chip8) : option chip8 :=
  match n with
  | O => Some c
  | S n =>
      match step env0 Debug c w0 with
      | Ok (c', w') => if Nat.eqb (w_time w') 0 && Nat.eqb (w_random w') 0 then quietly n c' else None
      | Panic => None
      end
  end.
Lemma quietly_unasked n : forall c c', quietly n c = Some c' -> unasked env0 Debug w0 n c c'.
Proof.
  induction n as [|n IH]; cbn [quietly]; intros c c' E; [injection E as <-; constructor|].
  destruct (step env0 Debug c w0) as [[c1 [t r]]|] eqn:Es; [|discriminate]. cbn [w_time w_random] in E.
  destruct (Nat.eqb_spec t 0) as [->|]; [|discriminate]. destruct (Nat.eqb_spec r 0) as [->|]; [|discriminate].
  econstructor; [exact Es|exact (IH _ _ E)].
Qed.

(** 71 01, add 1 to V1; 12 00, jump back: the loop that counts to 256 comes back
    to its first state after 512 instructions. *)
Definition counting : chip8 := demo [0x71; 0x01; 0x12; 0x00]%Z [] 0%Z None.
Example C102_case_loop : env_ok env0 /\ well_formed counting /\
  exists k c c', 0 < k /\ unasked env0 Debug w0 k counting c /\ same_machine counting c /\
    unasked env0 Debug w0 2 counting c' /\ ~ same_machine counting c'.
Proof.
  split; [exact env0_ok|]. split; [apply demo_wf; vm_compute; reflexivity|].
  exists (Z.to_nat 512), counting.
  assert (E : exists c', quietly 2 counting = Some c' /\ observe c' (PV 1) = 1%Z /\ observe counting (PV 1) = 0%Z).
  { eexists. split; [vm_compute; reflexivity|]. split; vm_compute; reflexivity. }
  destruct E as (c' & E & E1 & E0). exists c'. split; [lia|]. split; [apply quietly_unasked; vm_compute; reflexivity|].
  split; [intros q; reflexivity|]. split; [exact (quietly_unasked 2 _ _ E)|].
  intros S. specialize (S (PV 1)). rewrite E1, E0 in S. discriminate.
Qed.

(** C1 ff asks the generator; 81 f0 reads the register that is missing and
    panics. *)
Example C102_case_stops :
  (exists c', unasked env0 Debug w0 1 (demo [0x71; 0x01; 0xc1; 0xff]%Z [] 0%Z None) c' /\ asks env0 Debug w0 c') /\
  (exists c', unasked env0 Debug w0 1 (demo [0x71; 0x01; 0x81; 0xf0]%Z [] 0%Z None) c' /\ step env0 Debug c' w0 = Panic).
Proof.
  split.
  - assert (E : match quietly 1 (demo [0x71; 0x01; 0xc1; 0xff]%Z [] 0%Z None) with
      | Some c' => match step env0 Debug c' w0 with Ok (_, w') => w_random w' = 1 | Panic => False end | None => False end)
      by (vm_compute; reflexivity).
    destruct (quietly 1 _) as [c'|] eqn:Q; [|contradiction]. exists c'. split; [exact (quietly_unasked _ _ _ Q)|].
    destruct (step env0 Debug c' w0) as [[c2 w2]|] eqn:E2; [|contradiction]. exists c2, w2. split; [exact E2|].
    intros ->. discriminate E.
  - assert (E : match quietly 1 (demo [0x71; 0x01; 0x81; 0xf0]%Z [] 0%Z None) with
      | Some c' => match step env0 Debug c' w0 with Ok _ => False | Panic => True end | None => False end)
      by (vm_compute; exact I).
    destruct (quietly 1 _) as [c'|] eqn:Q; [|contradiction]. exists c'. split; [exact (quietly_unasked _ _ _ Q)|].
    destruct (step env0 Debug c' w0) as [[c2 w2]|]; [contradiction|reflexivity].
Qed.

Print Assumptions C102_no_new_states.
Print Assumptions C102_run_repeats.
Print Assumptions C102_stops_asks_or_repeats.
