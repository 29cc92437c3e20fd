(** C147: CHIP-8 code that passes the progress check keeps its pace whatever the
    host does to data between its instructions. *)
From Verif Require Import Base Arith ModelMap ModelStep ModelDisplay ModelChip8 ModelOpsChip8 ModelRunChip8 SpecMap Link6502
  SpecChip8 SpecChip8Parts SpecChip8Run ProofChip8 ProofChip8Step ProofChip8Reach ProofChip8Run PropertiesChip8Run
  SpecRoutines8 ProofRoutines8 PropertiesRoutines8 SpecHost8 ProofHost8 SpecCheck8 ProofCheck8 PropertiesCheck8
  SpecTamper8 PropertiesTamper8 SpecSecret8 ProofSecret8 PropertiesSecret8 SpecBudget8 PropertiesBudget8 SpecBeside8.

Lemma sane_checked p c l c' : passes8 p (fun a => observe c (PMem a)) l = true -> sane l (fun a => observe c (PMem a)) c' -> checked8 p c' l.
Proof.
  intros Hp S. pose proof (sane_track l c c' S) as T. destruct S as (Wf & Hn & _). split; [exact Wf|]. split; [|exact Hn].
  apply passes8_same with (fun a => observe c (PMem a)); [|exact Hp]. intros k Hin. rewrite !(track_code p c l c' k) by (assumption || lia). reflexivity.
Qed.

(** One instruction of a checked machine. *)
Lemma checked_pace e p c l B W w : env_ok e -> checked8 p c l -> in_time8 B W l = true -> exists c' w', step e p c w = Ok (c', w') /\ checked8 p c' l /\
  (marked8 B (observe c' PPC) = true \/ remaining B (observe c') + 1 <= remaining B (observe c)).
Proof.
  intros He Hc Ht. pose proof (checked_sane p c l Hc) as S. destruct Hc as (_ & Hp & _).
  destruct (one_less e p l _ B W He Hp Ht c w S) as (c' & w' & E & S' & M). exists c', w'. split; [exact E|]. split; [exact (sane_checked p c l c' Hp S')|exact M].
Qed.
Lemma checked_range p c l B W : checked8 p c l -> in_time8 B W l = true -> 1 <= remaining B (observe c) <= W.
Proof. intros Hc Ht. pose proof (checked_sane p c l Hc) as S. destruct Hc as (_ & Hp & _). exact (remaining_range p l _ B W Hp Ht c S). Qed.

Section Trace.
Variables (e : environment) (p : profile) (c : chip8) (l : listing8) (B : budget8) (W : Z) (tr : nat -> chip8).
Hypothesis He : env_ok e.
Hypothesis Hc : checked8 p c l.
Hypothesis Ht : in_time8 B W l = true.
Hypothesis Hb : beside e p B l c tr.

Lemma beside_next i : checked8 p (tr i) l -> checked8 p (tr (S i)) l /\
  (marked8 B (observe (tr (S i)) PPC) = true \/ remaining B (observe (tr (S i))) + 1 <= remaining B (observe (tr i))).
Proof.
  intros H. destruct Hb as (_ & Hs). destruct (Hs i) as (c1 & w & w' & (T & R) & E).
  destruct (checked_pace e p c1 l B W w He (checked_tampered p (tr i) l c1 H T) Ht) as (c2 & w2 & E2 & H2 & M). assert (c2 = tr (S i)) by congruence. subst c2.
  split; [exact H2|]. destruct M as [M|M]; [left; exact M|right; lia].
Qed.
Lemma beside_checked i : checked8 p (tr i) l.
Proof. induction i as [|i IH]; [rewrite (proj1 Hb); exact Hc|]. exact (proj1 (beside_next i IH)). Qed.
Lemma beside_mark : forall b i, remaining B (observe (tr i)) <= Z.of_nat b ->
  exists j, 1 <= Z.of_nat j <= remaining B (observe (tr i)) /\ marked8 B (observe (tr (i + j)%nat) PPC) = true.
Proof.
  induction b as [|b IH]; intros i Hi; pose proof (checked_range p (tr i) l B W (beside_checked i) Ht) as R; [lia|].
  destruct (beside_next i (beside_checked i)) as (_ & [M|M]).
  - exists 1%nat. split; [lia|]. rewrite Nat.add_1_r. exact M.
  - destruct (IH (S i) ltac:(lia)) as (j & J & Mk). exists (S j). split; [lia|]. rewrite Nat.add_succ_r. exact Mk.
Qed.
End Trace.

(** From any time on a marked instruction is reached after one to [W] more
    instructions, and the machine is always within what is noted. *)
Theorem C147_marks_keep_coming : forall e p c l B W tr, env_ok e -> checked8 p c l -> in_time8 B W l = true -> beside e p B l c tr ->
  forall m, (exists n, noted8 l (observe (tr m) PPC) = Some n /\ within (observe (tr m)) (known n)) /\
    exists j, 1 <= Z.of_nat j <= W /\ marked8 B (observe (tr (m + j)%nat) PPC) = true.
Proof.
  intros e p c l B W tr He Hc Ht Hb m. pose proof (beside_checked e p c l B W tr He Hc Ht Hb m) as H. pose proof (checked_range p (tr m) l B W H Ht) as R.
  split; [apply H|]. destruct (beside_mark e p c l B W tr He Hc Ht Hb (Z.to_nat W) m ltac:(lia)) as (j & J & M). exists j. split; [lia|exact M].
Qed.

(** Such executions never get stuck: after any change the next instruction does
    not panic. Whatever a host does, as long as it keeps to the allowed changes,
    gives one of them. *)
Theorem C147_never_stuck : forall e p c l B W (host : nat -> chip8 -> chip8) (ws : nat -> world), env_ok e -> checked8 p c l -> in_time8 B W l = true ->
  (forall i c', checked8 p c' l -> pushes_on B l c' (host i c')) ->
  exists tr, beside e p B l c tr /\ forall i, exists w', step e p (host i (tr i)) (ws i) = Ok (tr (S i), w').
Proof.
  intros e p c l B W host ws He Hc Ht Hh.
  set (go := fun i d => match step e p (host i d) (ws i) with Ok (d', _) => d' | Panic => d end).
  set (tr := fix tr (i : nat) : chip8 := match i with O => c | S i' => go i' (tr i') end).
  assert (N : forall i d, checked8 p d l -> exists w', step e p (host i d) (ws i) = Ok (go i d, w') /\ checked8 p (go i d) l).
  { intros i d Hd. destruct (checked_pace e p (host i d) l B W (ws i) He (checked_tampered p d l _ Hd (proj1 (Hh i d Hd))) Ht) as (d' & w' & E & Hd' & _).
    exists w'. unfold go. rewrite E. auto. }
  assert (C : forall i, checked8 p (tr i) l) by (induction i as [|i IH]; [exact Hc|]; destruct (N i (tr i) IH) as (w' & _ & H); exact H).
  exists tr. split.
  - split; [reflexivity|]. intros i. destruct (N i (tr i) (C i)) as (w' & E & _). exists (host i (tr i)), (ws i), w'. split; [exact (Hh i (tr i) (C i))|exact E].
  - intros i. destruct (N i (tr i) (C i)) as (w' & E & _). exists w'. exact E.
Qed.

(** The changes the library offers that leave V0-VE alone are allowed. *)
Theorem C147_what_the_host_may_do : forall p c l B n, checked8 p c l -> noted8 l (observe c PPC) = Some n ->
  (forall k, pushes_on B l c (with_interrupt c k)) /\
  (forall g, display_ok (g (c8_display c)) -> pushes_on B l c (with_display c g)) /\
  (forall t reg, u8 (clock_inner reg) -> pushes_on B l c (with_timer_register c t reg)) /\
  (forall v, u16 v -> inside v (g_i (known n)) -> pushes_on B l c (with_i_register c v)).
Proof.
  intros p c l B n Hc En. destruct (C140_what_the_host_may_do p c l n Hc En) as (H1 & H2 & H3 & H4 & _).
  split; [|split; [|split]].
  - intros k. split; [apply H1|]. apply Z.le_refl.
  - intros g Hg. split; [apply H2, Hg|]. apply Z.le_refl.
  - intros t reg Hr. split; [apply H3, Hr|]. destruct t; apply Z.le_refl.
  - intros v Hv Hi. split; [apply H4; assumption|]. apply Z.le_refl.
Qed.

(** ** A concrete case *)
(** The program of C143, under a host that presses a key or sets the delay timer
    to 7 before each instruction. *)
Definition busy_host (i : nat) (c : chip8) : chip8 :=
  if Nat.even i then with_interrupt c (Some (InterruptKeyPress Key5)) else with_timer_register c Delay (mkClock 0 7).
Example C147_case : exists c tr, checked8 Debug c encode_notes /\ beside env0 Debug encode_budget encode_notes c tr /\
  (forall i, exists w', step env0 Debug (busy_host i (tr i)) w0 = Ok (tr (S i), w')) /\
  forall m, exists j, 1 <= Z.of_nat j <= 98 /\ observe (tr (m + j)%nat) PPC = 0x21a.
Proof.
  destruct (demo_checked Debug (LdImmediate V1 0) (tl encode_code) anything (tl encode_known)) as (c & Hc & Hpc).
  - repeat constructor; cbn; unfold u8; lia.
  - cbn. lia.
  - vm_compute. reflexivity.
  - reflexivity.
  - intros k. unfold anything, ranged. cbn [g_v]. destruct (k =? 0), (k =? 1); reflexivity.
  - reflexivity.
  - destruct (C147_never_stuck env0 Debug c encode_notes encode_budget 98 busy_host (fun _ => w0) env0_ok Hc encode_in_time) as (tr & Hb & Hs).
    { intros i d Hd. pose proof Hd as (_ & _ & n & En & _). destruct (C147_what_the_host_may_do Debug d encode_notes encode_budget n Hd En) as (H1 & _ & H3 & _).
      unfold busy_host. destruct (Nat.even i); [apply H1|apply H3; unfold u8; cbn; lia]. }
    exists c, tr. split; [exact Hc|]. split; [exact Hb|]. split; [exact Hs|]. intros m.
    destruct (C147_marks_keep_coming env0 Debug c encode_notes encode_budget 98 tr env0_ok Hc encode_in_time Hb m) as (_ & j & J & M). exists j. split; [exact J|]. apply Z.eqb_eq. exact M.
Qed.

Print Assumptions C147_marks_keep_coming.
Print Assumptions C147_never_stuck.
Print Assumptions C147_what_the_host_may_do.
