(** C98: the cycle counters of [StepState] neither overflow nor underflow. *)
From Verif Require Import Base Arith ModelStep ModelChip8 ModelStep64 ModelMap ModelCpu6502 ModelRun6502 Link6502 Demo6502.

(** A value of a 64-bit [usize], and a state whose counter is one. *)
Definition usize (v : Z) : Prop := 0 <= v < 2 ^ 64.
Definition counter_ok {T} (s : step_state64 T) : Prop := match s with NotReady64 r _ => usize r | Ready64 _ => True end.
(** The state without the bound on its counter. *)
Definition view {T} (s : step_state64 T) : step_state T :=
  match s with NotReady64 r state => NotReady (Z.to_nat r) state | Ready64 state => Ready state end.

(** Uses of a state. *)
Inductive use := Decrement | Run (cycles : Z).
Definition use_ok (u : use) : Prop := match u with Decrement => True | Run n => usize n end.

Section Uses.
Context {T : Type} (p : profile).

(** The same outcome, with a counter that fits. *)
Definition alike (a : res (step_state64 T)) (b : res (step_state T)) : Prop :=
  match a, b with Ok s, Ok t => counter_ok s /\ view s = t | Panic, Panic => True | _, _ => False end.

Lemma sub_fits a b : usize a -> 0 <= b <= a -> sub_usize p a b = Ok (a - b).
Proof.
  unfold usize. intros H1 H2. unfold sub_usize, checked, usize_modulus. change (2 ^ 64) with 18446744073709551616 in H1.
  replace (_ && _) with true by lia. reflexivity.
Qed.

Lemma new_alike : forall c (state : T), usize c -> alike (ss64_new p c state) (Ok (ss_new (Z.to_nat c) state)).
Proof.
  intros c state H. unfold ss64_new, ss_new. assert (H' := H). unfold usize in H'.
  destruct (Z.eqb_spec c 0) as [->|N0]; [split; [exact I|reflexivity]|]. destruct (Z.eqb_spec c 1) as [->|N1]; [split; [exact I|reflexivity]|].
  cbn [orb]. rewrite sub_fits by (assumption || lia). cbn [bind alike counter_ok view]. split; [unfold usize; lia|].
  destruct (Z.to_nat c) as [|[|n]] eqn:E; [lia|lia|]. f_equal. lia.
Qed.
Lemma pair_alike : forall s : step_state64 T, counter_ok s -> usize (fst (ss64_into_pair s)) /\
  ss_into_pair (view s) = (Z.to_nat (fst (ss64_into_pair s)), snd (ss64_into_pair s)).
Proof. intros [r s|s] H; cbn [ss64_into_pair fst snd view ss_into_pair]; (split; [|reflexivity]); [exact H|unfold usize; lia]. Qed.

Context (run64 : T -> Z -> res (step_state64 T)) (run : T -> nat -> res (step_state T)).
Definition apply64 (s : step_state64 T) (u : use) : res (step_state64 T) :=
  match u with Decrement => ss64_decrement p s | Run n => ss64_run p run64 s n end.
Definition apply (s : step_state T) (u : use) : res (step_state T) :=
  match u with Decrement => Ok (ss_decrement s) | Run n => ss_run run s (Z.to_nat n) end.

(** Every use of a state, and any sequence of uses, does with 64-bit counters
    what it does without a bound, in both build profiles, if running the
    machine does. *)
Context (run_alike : forall s n, usize n -> alike (run64 s n) (run s (Z.to_nat n))).

Lemma use_alike : forall s u, counter_ok s -> use_ok u -> alike (apply64 s u) (apply (view s) u).
Proof.
  intros s u Hs Hu. destruct u as [|n]; cbn [apply64 apply].
  - destruct s as [r s|s]; cbn [view ss_decrement ss64_decrement]; [|split; [exact I|reflexivity]].
    cbn [counter_ok] in Hs. assert (H' := Hs). unfold usize in H'.
    destruct (Z.eqb_spec r 1) as [->|N1]; [split; [exact I|reflexivity]|]. destruct (Z.eqb_spec r 0) as [->|N0]; [split; [exact I|reflexivity]|].
    rewrite sub_fits by (assumption || lia). cbn [bind alike counter_ok view]. split; [unfold usize; lia|].
    destruct (Z.to_nat r) as [|[|k]] eqn:E; [lia|lia|]. f_equal. lia.
  - cbn [use_ok] in Hu. destruct s as [r s|s]; cbn [view ss_run ss64_run]; [|apply run_alike, Hu].
    cbn [counter_ok] in Hs. unfold usize in *. destruct (Z.ltb_spec n r).
    + replace (Nat.ltb (Z.to_nat n) (Z.to_nat r)) with true by lia. split; [cbn; unfold usize; lia|reflexivity].
    + replace (Nat.ltb (Z.to_nat n) (Z.to_nat r)) with false by lia. rewrite sub_fits by (unfold usize; lia). cbn [bind].
      rewrite <- Z2Nat.inj_sub by lia. apply run_alike. unfold usize. lia.
Qed.

Lemma uses_alike : forall us s, counter_ok s -> Forall use_ok us -> alike (foldM apply64 us s) (foldM apply us (view s)).
Proof.
  induction us as [|u us IH]; intros s Hs F; cbn [foldM]; [split; [exact Hs|reflexivity]|].
  inversion_clear F as [|? ? Hu F']. pose proof (use_alike s u Hs Hu) as A.
  destruct (apply64 s u) as [s1|], (apply (view s) u) as [t1|]; cbn [bind]; try contradiction; [|exact I].
  destruct A as [A <-]. apply IH; assumption.
Qed.
End Uses.

(** ** C98 *)
(** Building a state and taking it apart. *)
Theorem C98_new : forall T p c (state : T), usize c ->
  exists s, ss64_new p c state = Ok s /\ counter_ok s /\ view s = ss_new (Z.to_nat c) state.
Proof.
  intros T p c state H. pose proof (new_alike p c state H) as A. unfold alike in A.
  destruct (ss64_new p c state) as [s|]; [|contradiction]. exists s. split; [reflexivity|exact A].
Qed.
Theorem C98_pair : forall T (s : step_state64 T), counter_ok s -> usize (fst (ss64_into_pair s)) /\
  ss_into_pair (view s) = (Z.to_nat (fst (ss64_into_pair s)), snd (ss64_into_pair s)).
Proof. intros T s. apply pair_alike. Qed.

(** Any sequence of decrements and runs of any machine, for any numbers of
    cycles a [usize] can hold: with 64-bit counters it does, in both build
    profiles, what it does without a bound, and panics only if running the
    machine itself does. [run64] is the machine's own [run]. *)
Theorem C98_uses : forall T p (run64 : T -> Z -> res (step_state64 T)) (run : T -> nat -> res (step_state T)),
  (forall m n, usize n -> alike (run64 m n) (run m (Z.to_nat n))) ->
  forall us s, counter_ok s -> Forall use_ok us ->
  match foldM (apply64 p run64) us s, foldM (apply run) us (view s) with
  | Ok s', Ok t' => counter_ok s' /\ view s' = t'
  | Panic, Panic => True
  | _, _ => False
  end.
Proof. intros T p run64 run H us s Hs F. exact (uses_alike p run64 run H us s Hs F). Qed.

(** The 6502's [run] is such a machine's: it ends ready, without a counter. *)
Definition run_6502 {D} `{Device D} (p : profile) (cpu : mos6502 D) (n : Z) : res (step_state64 (mos6502 D)) :=
  do! cs <- take_cycles p (Z.to_nat n) [] cpu ;
  do! state <- foldM (execute_mut p) (concat cs) cpu ;
  ss64_from p state.
Theorem C98_uses_6502 : forall D (dev : Device D) p us s, counter_ok s -> Forall use_ok us ->
  match foldM (apply64 p (run_6502 p)) us s, foldM (apply (run p)) us (view s) with
  | Ok s', Ok t' => counter_ok s' /\ view s' = t'
  | Panic, Panic => True
  | _, _ => False
  end.
Proof.
  intros D dev p us s Hs F. apply C98_uses; [|exact Hs|exact F]. intros cpu n _. unfold run_6502, run.
  destruct (take_cycles p (Z.to_nat n) [] cpu) as [cs|]; cbn [bind]; [|exact I].
  destruct (foldM (execute_mut p) (concat cs) cpu) as [c|]; cbn [bind]; [|exact I].
  split; [exact I|reflexivity].
Qed.

(** A state that waits for 2^64 - 1 cycles. *)
Example C98_case : forall p, let s := NotReady64 (2 ^ 64 - 1) tt in
  counter_ok s /\ Forall use_ok [Decrement; Run 7; Run (2 ^ 64 - 1)] /\
  foldM (apply64 p (fun c _ => Ok (Ready64 c))) [Decrement; Run 7; Run (2 ^ 64 - 1)] s = Ok (Ready64 tt) /\
  apply64 p (fun c _ => Ok (Ready64 c)) s Decrement = Ok (NotReady64 (2 ^ 64 - 2) tt).
Proof.
  intros [] s; (split; [cbn; unfold usize; lia|]; split; [repeat constructor; cbn; unfold usize; lia|]; split; vm_compute; reflexivity).
Qed.
Example C98_case_6502 : match foldM (apply64 Debug (run_6502 Debug)) [Decrement; Run 3] (NotReady64 2 (machine [] [0xe8; 0xe8] 0 7 0 0xff ps0)) with
  | Ok (Ready64 c) => reg_x c = 8 | _ => False end.
Proof. vm_compute. reflexivity. Qed.

Print Assumptions C98_new.
Print Assumptions C98_pair.
Print Assumptions C98_uses.
Print Assumptions C98_uses_6502.
