(** C55: the buffered random number generator, under every interleaving of
    the producer thread and the owner. *)
From Coq Require Import ZArith List Bool Arith Lia.
From Verif Require Import Base ModelRng.
Import ListNotations.
Local Open Scope nat_scope.

(** ** Specification *)
(** The state [s] is reached under some interleaving of the two threads. *)
Definition interleaving g bound (sched : list action) (s : state) : Prop := perform g bound start sched = Some s.

(** The first [n] bytes of the wrapped generator, which must not panic
    before. *)
Definition produces (g : generator) (l : list Z) : Prop := forall k, k < length l -> g k = Ok (nth k l 0%Z).
Definition never_panics (g : generator) : Prop := forall k, exists b, g k = Ok b.

(** Actions of the producer thread and of a pending [random] call: all but
    the owner's decisions to call [random] or to drop the generator. *)
Definition internal (a : action) : Prop := a <> Call /\ a <> Drop.

(** ** Invariant *)
Definition held (p : producer) : list Z := match p with Sending b => [b] | _ => [] end.
Definition crashed (p : producer) : nat := match p with Crashed => 1 | _ => 0 end.
Definition busy (p : producer) : nat := match p with Calling => 0 | _ => 1 end.
Record inv (g : generator) (bound : nat) (s : state) : Prop :=
  { inv_bytes : exists l, produces g l /\ length l + crashed (thread s) = calls s /\
      (exists rest, returned s ++ rest = l) /\
      (owner s <> Dropped -> returned s ++ queue s ++ held (thread s) = l);
    inv_crashed : thread s = Crashed -> exists n, calls s = S n /\ g n = Panic;
    inv_bound : length (queue s) <= bound;
    inv_failed : owner s = Failed -> thread s = Crashed /\ queue s = [];
    inv_finished : thread s = Finished -> owner s = Dropped;
    inv_dropped : owner s = Dropped -> queue s = [];
    inv_calls : calls s <= length (returned s) + bound + busy (thread s) }.

Lemma produces_snoc g l b : produces g l -> g (length l) = Ok b -> produces g (l ++ [b]).
Proof.
  intros P H k Hk. rewrite app_length in Hk. cbn [length] in Hk. destruct (Nat.eq_dec k (length l)) as [->|N].
  - rewrite app_nth2, Nat.sub_diag by lia. exact H.
  - rewrite app_nth1 by lia. apply P. lia.
Qed.
Lemma produces_prefix g l l' : produces g (l ++ l') -> produces g l.
Proof. intros P k Hk. rewrite (P k) by (rewrite app_length; lia). rewrite app_nth1 by exact Hk. reflexivity. Qed.

Lemma inv_start g bound : inv g bound start.
Proof.
  constructor; cbn; try discriminate; try lia.
  exists []. split; [intros k Hk; cbn in Hk; lia|]. split; [reflexivity|]. split; [exists []; reflexivity|reflexivity].
Qed.
Ltac bytes := repeat match goal with H : _ /\ _ |- _ => destruct H | H : exists _, _ |- _ => destruct H end.
Lemma inv_act g bound s a s' : inv g bound s -> act g bound s a = Some s' -> inv g bound s'.
Proof.
  intros [(l & Pl & Nl & (rest & Rl) & Bl) Hc Hb Hf Hn Hd Hk] E. destruct s as [n p q c r]. cbn in Pl, Nl, Rl, Bl, Hc, Hb, Hf, Hn, Hd, Hk.
  unfold act in E.
  destruct a.
  - (* Generate *)
    destruct p; try discriminate E. cbn [crashed busy held] in *. rewrite Nat.add_0_r in Nl.
    destruct (g n) as [b|] eqn:Eg; injection E as <-.
    + constructor; cbn; try discriminate; try assumption; try lia.
      * exists (l ++ [b]). split; [apply produces_snoc; [exact Pl|rewrite Nl; exact Eg]|].
        split; [rewrite app_length; cbn; lia|]. split; [exists (rest ++ [b]); rewrite app_assoc, Rl; reflexivity|].
        intros Ho. rewrite <- (Bl Ho), app_nil_r, app_assoc. reflexivity.
      * intros Ho. destruct (Hf Ho) as [X _]. discriminate X.
    + constructor; cbn; try discriminate; try assumption; try lia.
      * exists l. split; [exact Pl|]. split; [lia|]. split; [exists rest; exact Rl|exact Bl].
      * intros _. exists n. split; [reflexivity|exact Eg].
      * intros Ho. destruct (Hf Ho) as [X _]. discriminate X.
  - (* Send *)
    destruct p as [|b| |], c; try discriminate E; destruct (length q <? bound) eqn:El; try discriminate E; injection E as <-;
      apply Nat.ltb_lt in El; cbn [crashed busy held] in *.
    all: pose proof (Bl ltac:(discriminate)) as Bl'.
    all: assert (Ln : length l = length r + length q + 1) by (rewrite <- Bl', !app_length; cbn; lia).
    all: constructor; cbn; try discriminate; try (rewrite app_length; cbn); try lia.
    all: exists l; split; [exact Pl|]; split; [lia|]; split; [exists rest; exact Rl|]; intros _; rewrite app_nil_r; exact Bl'.
  - (* SendFails *)
    destruct p as [|b| |], c; try discriminate E; injection E as <-; cbn [crashed busy held] in *.
    + destruct (Hf eq_refl) as [X _]. discriminate X.
    + constructor; cbn; try discriminate; try assumption; try lia; try reflexivity.
      exists l. split; [exact Pl|]. split; [lia|]. split; [exists rest; exact Rl|]. intros X. contradiction.
  - (* Handover *)
    destruct p as [|b| |], c, q; try discriminate E; destruct (bound =? 0) eqn:Eb; try discriminate E; injection E as <-;
      apply Nat.eqb_eq in Eb; cbn [crashed busy held length app] in *.
    pose proof (Bl ltac:(discriminate)) as Bl'.
    assert (Ln : length l = length r + 1) by (rewrite <- Bl', !app_length; cbn; lia).
    constructor; cbn; try discriminate; try (rewrite app_length; cbn); try lia.
    exists l. split; [exact Pl|]. split; [lia|]. split; [exists []; rewrite app_nil_r; exact Bl'|]. intros _. rewrite app_nil_r. exact Bl'.
  - (* Call *)
    destruct p as [|b| |], c; try discriminate E; injection E as <-.
    all: constructor; cbn; try discriminate; try assumption; try lia.
    all: try (intros X; specialize (Hn X); discriminate Hn).
    all: exists l; split; [exact Pl|]; split; [exact Nl|]; split; [exists rest; exact Rl|]; intros _; apply Bl; discriminate.
  - (* Receive *)
    destruct p as [|b| |], c, q as [|b' q]; try discriminate E; injection E as <-; cbn [length] in *.
    all: pose proof (Bl ltac:(discriminate)) as Bl'.
    all: constructor; cbn [thread calls returned queue owner]; try discriminate; try assumption; try (rewrite app_length; cbn [length]); try lia.
    all: try (intros X; specialize (Hn X); discriminate Hn).
    all: exists l; split; [exact Pl|]; split; [exact Nl|]; split; [eexists; rewrite <- app_assoc; exact Bl'|].
    all: intros _; rewrite <- app_assoc; exact Bl'.
  - (* ReceiveFails *)
    destruct p as [|b| |], c, q as [|b' q]; try discriminate E; injection E as <-.
    + specialize (Hn eq_refl). discriminate Hn.
    + constructor; cbn [thread calls returned queue owner]; try discriminate; try assumption; try lia; try (split; reflexivity); try (intros _; split; reflexivity).
      exists l. split; [exact Pl|]. split; [exact Nl|]. split; [exists rest; exact Rl|]. intros _. apply Bl. discriminate.
  - (* Drop *)
    destruct p as [|b| |], c; try discriminate E; injection E as <-.
    all: constructor; cbn [thread calls returned queue owner length]; try discriminate; try assumption; try lia; try (intros; reflexivity).
    all: exists l; split; [exact Pl|]; split; [exact Nl|]; split; [exists rest; exact Rl|]; intros X; contradiction.
Qed.
Lemma inv_perform g bound sched : forall s s', inv g bound s -> perform g bound s sched = Some s' -> inv g bound s'.
Proof.
  induction sched as [|a sched IH]; intros s s' H E; cbn [perform] in E; [congruence|].
  destruct (act g bound s a) as [s1|] eqn:E1; [|discriminate]. exact (IH s1 s' (inv_act g bound s a s1 H E1) E).
Qed.
Lemma interleaving_inv g bound sched s : interleaving g bound sched s -> inv g bound s.
Proof. exact (inv_perform g bound sched start s (inv_start g bound)). Qed.

(** ** C55 *)
(** Order, no loss, no duplication: the results of the [random] calls so far
    are the first bytes of the wrapped generator, whatever the schedule. *)
Theorem C55_in_order : forall g bound sched s, interleaving g bound sched s -> produces g (returned s).
Proof.
  intros g bound sched s H. destruct (inv_bytes g bound s (interleaving_inv g bound sched s H)) as (l & P & _ & (rest & <-) & _).
  exact (produces_prefix g _ _ P).
Qed.
(** Hence the k-th call of [random] returns the same byte under all schedules
    and for all buffer sizes. *)
Theorem C55_schedule_irrelevant : forall g bound1 sched1 s1 bound2 sched2 s2 k,
  interleaving g bound1 sched1 s1 -> interleaving g bound2 sched2 s2 ->
  k < length (returned s1) -> k < length (returned s2) -> nth k (returned s1) 0%Z = nth k (returned s2) 0%Z.
Proof.
  intros g b1 h1 s1 b2 h2 s2 k H1 H2 K1 K2.
  pose proof (C55_in_order g b1 h1 s1 H1 k K1) as E1. pose proof (C55_in_order g b2 h2 s2 H2 k K2) as E2. congruence.
Qed.
(** No byte disappears on the way: while the generator is alive, what was
    produced is what was returned, then what is buffered, then the byte the
    thread is trying to send. *)
Theorem C55_nothing_lost : forall g bound sched s, interleaving g bound sched s ->
  owner s <> Dropped -> never_panics g ->
  produces g (returned s ++ queue s ++ held (thread s)) /\
  length (returned s ++ queue s ++ held (thread s)) = calls s.
Proof.
  intros g bound sched s H Ho Hg. pose proof (interleaving_inv g bound sched s H) as J.
  destruct (inv_bytes g bound s J) as (l & P & N & _ & B). rewrite (B Ho). split; [exact P|].
  assert (crashed (thread s) = 0); [|lia].
  destruct (thread s) eqn:Et; try reflexivity. destruct (inv_crashed g bound s J Et) as (n & _ & Hn).
  destruct (Hg n) as (b & Hb). congruence.
Qed.
(** The buffer never exceeds its capacity, and the thread never runs ahead of
    the consumer by more than the buffer and the byte in its hand. *)
Theorem C55_bounded : forall g bound sched s, interleaving g bound sched s ->
  length (queue s) <= bound /\ calls s <= length (returned s) + bound + 1.
Proof.
  intros g bound sched s H. pose proof (interleaving_inv g bound sched s H) as J. split; [exact (inv_bound g bound s J)|].
  pose proof (inv_calls g bound s J). destruct (thread s); cbn [busy] in *; lia.
Qed.

(** A generator from [new] runs at most 1025 bytes ahead. *)
Theorem C55_new_bounded : forall g sched s, interleaving g default_bound sched s ->
  (Z.of_nat (length (queue s)) <= 1024 /\ Z.of_nat (calls s) <= Z.of_nat (length (returned s)) + 1025)%Z.
Proof. intros g sched s H. destruct (C55_bounded g default_bound sched s H) as [B1 B2]. unfold default_bound in *. lia. Qed.

(** A pending [random] call is never stuck: some thread can move. *)
Theorem C55_no_deadlock : forall g bound sched s, interleaving g bound sched s -> owner s = Receiving ->
  exists a s', internal a /\ act g bound s a = Some s'.
Proof.
  intros g bound sched s H Ho. pose proof (interleaving_inv g bound sched s H) as J.
  pose proof (inv_finished g bound s J) as Hn. destruct s as [n p q c r]. cbn [owner thread queue] in *. subst c.
  destruct q as [|b q].
  - destruct p as [|b| |].
    + exists Generate. cbn [act]. destruct (g n); eexists; (split; [split; discriminate|reflexivity]).
    + destruct (Nat.eq_dec bound 0) as [->|N].
      * exists Handover. eexists. split; [split; discriminate|reflexivity].
      * exists Send. cbn [act length]. assert ((0 <? bound) = true) as -> by (apply Nat.ltb_lt; lia).
        eexists. split; [split; discriminate|reflexivity].
    + specialize (Hn eq_refl). discriminate Hn.
    + exists ReceiveFails. eexists. split; [split; discriminate|reflexivity].
  - exists Receive. destruct p; eexists; (split; [split; discriminate|reflexivity]).
Qed.

(** And it ends within a fixed number of moves, whichever thread is scheduled
    at each of them: after [2 * bound + 2] moves at most it has returned one
    more byte, if the wrapped generator does not panic. *)
Definition work (bound : nat) (s : state) : nat :=
  2 * (bound - length (queue s)) + match thread s with Calling => 1 | _ => 0 end.
Lemma pending_act g bound s a s' : inv g bound s -> never_panics g -> owner s = Receiving -> internal a ->
  act g bound s a = Some s' ->
  (owner s' = Receiving /\ returned s' = returned s /\ work bound s' < work bound s) \/
  (exists b, owner s' = Elsewhere /\ returned s' = returned s ++ [b]).
Proof.
  intros J Hg Ho [I1 I2] E. pose proof (inv_finished g bound s J) as Hn. pose proof (inv_crashed g bound s J) as Hc.
  assert (NC : thread s <> Crashed).
  { intros X. destruct (Hc X) as (n & _ & Hp). destruct (Hg n) as (b & Hb). congruence. }
  destruct s as [n p q c r]. cbn [owner thread calls] in *. subst c. unfold act in E.
  destruct a; try (exfalso; (apply I1; reflexivity) || (apply I2; reflexivity)).
  - destruct p; try discriminate E. destruct (Hg n) as (b & Hb). rewrite Hb in E. injection E as <-.
    left. split; [reflexivity|]. split; [reflexivity|]. unfold work. cbn. lia.
  - destruct p as [|b| |]; try discriminate E. destruct (length q <? bound) eqn:El; [|discriminate E]. injection E as <-.
    apply Nat.ltb_lt in El. left. split; [reflexivity|]. split; [reflexivity|]. unfold work. cbn [queue thread].
    rewrite app_length. cbn [length]. lia.
  - destruct p; discriminate E.
  - destruct p as [|b| |], q; try discriminate E. destruct (bound =? 0); [|discriminate E]. injection E as <-.
    right. exists b. split; reflexivity.
  - destruct p as [|b0| |], q as [|b q]; try discriminate E; injection E as <-; right; exists b; split; reflexivity.
  - destruct p, q; try discriminate E; [specialize (Hn eq_refl); discriminate Hn|contradiction].
Qed.
Lemma pending_moves g bound : never_panics g -> forall moves s s', inv g bound s -> owner s = Receiving ->
  Forall internal moves -> work bound s < length moves -> perform g bound s moves = Some s' ->
  exists k b s1, perform g bound s (firstn k moves) = Some s1 /\ returned s1 = returned s ++ [b].
Proof.
  intros Hg. induction moves as [|a moves IH]; intros s s' J Ho F L E; cbn [length] in L; [lia|].
  apply Forall_cons_iff in F as [Fa F]. cbn [perform] in E. destruct (act g bound s a) as [s1|] eqn:E1; [|discriminate].
  destruct (pending_act g bound s a s1 J Hg Ho Fa E1) as [(O1 & R1 & W1)|(b & O1 & R1)].
  - destruct (IH s1 s' (inv_act g bound s a s1 J E1) O1 F ltac:(lia) E) as (k & b & s2 & P & R).
    exists (S k), b, s2. cbn [firstn perform]. rewrite E1. split; [exact P|]. rewrite R, R1. reflexivity.
  - exists 1, b, s1. cbn [firstn perform]. rewrite E1. split; [reflexivity|exact R1].
Qed.
Theorem C55_call_returns : forall g bound sched s moves s', never_panics g ->
  interleaving g bound sched s -> owner s = Receiving -> Forall internal moves -> length moves = 2 * bound + 2 ->
  perform g bound s moves = Some s' ->
  exists k b s1, perform g bound s (firstn k moves) = Some s1 /\ returned s1 = returned s ++ [b].
Proof.
  intros g bound sched s moves s' Hg H Ho F L E.
  apply (pending_moves g bound Hg moves s s' (interleaving_inv g bound sched s H) Ho F); [|exact E].
  unfold work. destruct (thread s); lia.
Qed.

(** [random] panics only after the wrapped generator panicked, and not before
    every byte it had produced was returned. *)
Theorem C55_panics_only_if : forall g bound sched s, interleaving g bound sched s -> owner s = Failed ->
  g (length (returned s)) = Panic.
Proof.
  intros g bound sched s H Ho. pose proof (interleaving_inv g bound sched s H) as J.
  destruct (inv_failed g bound s J Ho) as [Ht Hq]. destruct (inv_crashed g bound s J Ht) as (n & Hn & Hp).
  destruct (inv_bytes g bound s J) as (l & _ & N & _ & B). specialize (B ltac:(rewrite Ho; discriminate)).
  rewrite Hq, Ht in B. cbn [held app] in B. rewrite app_nil_r in B. rewrite B. rewrite Ht in N. cbn [crashed] in N.
  replace (length l) with n by lia. exact Hp.
Qed.
(** The thread ends only when the generator is dropped or the wrapped
    generator panics, and once dropped it calls the wrapped generator at most
    once more: any two moves end it. *)
Theorem C55_thread_lives : forall g bound sched s, interleaving g bound sched s -> never_panics g ->
  owner s <> Dropped -> thread s = Calling \/ exists b, thread s = Sending b.
Proof.
  intros g bound sched s H Hg Ho. pose proof (interleaving_inv g bound sched s H) as J.
  destruct (thread s) eqn:Et; [left; reflexivity|right; eexists; reflexivity|exfalso; exact (Ho (inv_finished g bound s J Et))|].
  destruct (inv_crashed g bound s J Et) as (n & _ & Hp). destruct (Hg n) as (b & Hb). congruence.
Qed.
Theorem C55_thread_ends : forall g bound sched s, interleaving g bound sched s -> owner s = Dropped ->
  (thread s = Finished \/ thread s = Crashed) \/
  (exists a s', internal a /\ act g bound s a = Some s') /\
  (forall a b s1 s2, act g bound s a = Some s1 -> act g bound s1 b = Some s2 -> thread s2 = Finished /\ calls s2 <= S (calls s)).
Proof.
  intros g bound sched s H Ho. destruct s as [n p q c r]. cbn [owner thread calls] in *. subst c. destruct p as [|b| |].
  - right. split.
    + exists Generate. cbn [act]. destruct (g n); eexists; (split; [split; discriminate|reflexivity]).
    + intros a b s1 s2 E1 E2. unfold act in E1. destruct a, q; try discriminate E1; destruct (g n); injection E1 as <-;
        destruct b; try discriminate E2; injection E2 as <-; (split; [reflexivity|cbn; lia]).
  - right. split.
    + exists SendFails. eexists. split; [split; discriminate|reflexivity].
    + intros a b' s1 s2 E1 E2. unfold act in E1. destruct a, q; try discriminate E1; injection E1 as <-; destruct b'; discriminate E2.
  - left. left. reflexivity.
  - left. right. reflexivity.
Qed.

(** Every number of bytes can be delivered, for every capacity. *)
Theorem C55_delivers : forall g bound n, never_panics g ->
  exists sched s, interleaving g bound sched s /\ length (returned s) = n /\ owner s = Elsewhere.
Proof.
  intros g bound n Hg.
  assert (K : exists sched s, interleaving g bound sched s /\ length (returned s) = n /\ owner s = Elsewhere /\ thread s = Calling /\ queue s = []).
  { induction n as [|n (sched & s & H & R & O & T & Q)].
    - exists [], start. repeat split; reflexivity.
    - destruct s as [c p q o r]. cbn in R, O, T, Q. subst o p q. destruct (Hg c) as (b & Hb).
      assert (App : forall l s0 s2, perform g bound start sched = Some s0 -> perform g bound s0 l = Some s2 -> perform g bound start (sched ++ l) = Some s2).
      { clear. generalize start. induction sched as [|a sched IH]; intros s1 l s0 s2 E1 E2; cbn [perform app] in *; [congruence|].
        destruct (act g bound s1 a); [|discriminate]. exact (IH _ l s0 s2 E1 E2). }
      destruct (Nat.eq_dec bound 0) as [->|N].
      + exists (sched ++ [Call; Generate; Handover]), (mkState (S c) Calling [] Elsewhere (r ++ [b])).
        split; [|cbn [returned owner thread queue]; rewrite app_length; cbn [length]; repeat split; lia].
        refine (App _ _ _ H _). cbn [perform act]. rewrite Hb. reflexivity.
      + exists (sched ++ [Call; Generate; Send; Receive]), (mkState (S c) Calling [] Elsewhere (r ++ [b])).
        split; [|cbn [returned owner thread queue]; rewrite app_length; cbn [length]; repeat split; lia].
        refine (App _ _ _ H _). cbn [perform act]. rewrite Hb. cbn [perform act length].
        assert ((0 <? bound) = true) as -> by (apply Nat.ltb_lt; lia). reflexivity. }
  destruct K as (sched & s & H & R & O & _). exists sched, s. repeat split; assumption.
Qed.

(** ** Concrete cases *)
Definition count_up : generator := fun k => Ok (Z.of_nat k).
Definition stops_at_2 : generator := fun k => if (k <? 2) then Ok (Z.of_nat k) else Panic.
Example C55_case : exists s,
  interleaving count_up 2 [Generate; Send; Call; Generate; Send; Generate; Receive; Send; Call; Receive; Call] s /\
  returned s = [0; 1]%Z /\ queue s = [2]%Z /\ owner s = Receiving.
Proof. eexists. split; [reflexivity|]. repeat split; reflexivity. Qed.
Example C55_call_returns_case : exists s s',
  interleaving count_up 1 [Call] s /\ owner s = Receiving /\ perform count_up 1 s [Generate; Send; Generate; Receive] = Some s'.
Proof. eexists. eexists. split; [reflexivity|]. split; reflexivity. Qed.
Example C55_rendezvous_case : exists s, interleaving count_up 0 [Generate; Call; Handover; Call; Generate; Handover] s /\ returned s = [0; 1]%Z.
Proof. eexists. split; reflexivity. Qed.
Example C55_full_buffer_blocks : perform count_up 1 start [Generate; Send; Generate; Send] = None.
Proof. reflexivity. Qed.
Example C55_panic_case : exists s,
  interleaving stops_at_2 2 [Generate; Send; Generate; Send; Generate; Call; Receive; Call; Receive; Call; ReceiveFails] s /\
  owner s = Failed /\ returned s = [0; 1]%Z.
Proof. eexists. split; [reflexivity|]. split; reflexivity. Qed.
Example C55_drop_case : exists s, interleaving count_up 2 [Generate; Send; Drop; Generate] s /\ owner s = Dropped.
Proof. eexists. split; reflexivity. Qed.

Print Assumptions C55_in_order.
Print Assumptions C55_schedule_irrelevant.
Print Assumptions C55_nothing_lost.
Print Assumptions C55_bounded.
Print Assumptions C55_new_bounded.
Print Assumptions C55_no_deadlock.
Print Assumptions C55_call_returns.
Print Assumptions C55_panics_only_if.
Print Assumptions C55_thread_lives.
Print Assumptions C55_thread_ends.
Print Assumptions C55_delivers.
