(** C76: the complete list of instructions on which the CHIP-8 departs from
    the technical reference (SpecReference8.v). *)
From Verif Require Import Base Arith ModelDisplay ModelChip8 ModelOpsChip8 ModelRunChip8 ModelStep SpecChip8 SpecChip8Parts SpecChip8Run.
From Verif Require Import ProofChip8 ProofChip8Step ProofChip8Reach ProofChip8Run PropertiesChip8Run SpecReference8 ProofReference8.

(** One instruction of any kind, on any machine: the emulator does exactly
    what the reference says (every part of the machine, the same clock and
    random number consumed) if and only if the instruction is not in the list
    [departs8]. *)
Theorem C76_step_iff : forall e p c w f op g w',
  env_ok e -> well_formed c -> looks c f -> ref_fetches f op -> reference e f w op = Some (g, w') ->
  ((exists c', step e p c w = Ok (c', w') /\ looks c' g) <-> ~ departs8 e f w op).
Proof. intros e p c w f op g w' He W L. exact (step_iff8 e p c w f W He L op g w'). Qed.

(** Programs: any number of instructions none of which departs, in either
    build; the machine is left as the reference leaves it. *)
Theorem C76_run : forall e p c ops st st',
  env_ok e -> well_formed c -> looks c (fst st) -> ref_run e ops st st' ->
  exists mcs c', iterate e p (length ops) c (snd st) = Ok (mcs, c', snd st') /\ looks c' (fst st').
Proof.
  intros e p c ops st st' He W L X. destruct (ref_run_executes e p ops st st' He X c W L) as (c' & h & Hx & L' & _ & Hm).
  destruct (executes_iterate _ _ _ _ _ _ _ Hx) as [mcs E]. exists mcs, c'. split; [|exact L'].
  replace (length ops) with (length h); [exact E|]. rewrite <- (map_length snd h), Hm, map_length. reflexivity.
Qed.

(** The same for [run], as long as no timer is set (why not otherwise: C52). *)
Theorem C76_run_cpu : forall e p c ops st st',
  env_ok e -> well_formed c -> looks c (fst st) -> ref_run e ops st st' ->
  Forall (fun op => match op with LdDelayTimerDestTx _ | LdSoundTimerDestTx _ => False | _ => True end) ops ->
  exists c', run e p c (length ops) (snd st) = Ok (Ready c', snd st') /\ looks c' (fst st').
Proof.
  intros e p c ops st st' He W L X F. destruct (ref_run_executes e p ops st st' He X c W L) as (c' & h & Hx & L' & _ & Hm).
  exists c'. split; [|exact L'].
  replace (length ops) with (length h) by (rewrite <- (map_length snd h), Hm, map_length; reflexivity).
  apply (C52_compose_partial e p c (snd st) h c' (snd st') 0 W He Hx).
  assert (Fo : Forall operands_ok ops).
  { clear - X. induction X as [st|op ops f w f1 w1 st Hf E Hd X IH]; [constructor|]. constructor; [apply Hf|exact IH]. }
  assert (G : Forall (fun word => sets_timer word = false) (map snd h)); [|apply Forall_map in G; exact G].
  rewrite Hm. clear - F Fo. induction F as [|op ops Fx F IH]; [constructor|]. inversion_clear Fo as [|? ? Hop Fo'].
  cbn [map]. constructor; [|exact (IH Fo')]. rewrite (timer_word op Hop). destruct op; (reflexivity || contradiction).
Qed.

(** ... and the first one that does is the first one to be seen. *)
Theorem C76_first_departure : forall e p c ops st st1 op g w',
  env_ok e -> well_formed c -> looks c (fst st) -> ref_run e ops st st1 ->
  ref_fetches (fst st1) op -> reference e (fst st1) (snd st1) op = Some (g, w') -> departs8 e (fst st1) (snd st1) op ->
  exists mcs c1, iterate e p (length ops) c (snd st) = Ok (mcs, c1, snd st1) /\ looks c1 (fst st1) /\
    forall c2, step e p c1 (snd st1) = Ok (c2, w') -> ~ looks c2 g.
Proof.
  intros e p c ops st st1 op g w' He W L X Hf E Hd.
  destruct (ref_run_executes e p ops st st1 He X c W L) as (c1 & h & Hx & L1 & W1 & Hm).
  destruct (executes_iterate _ _ _ _ _ _ _ Hx) as [mcs Ei]. exists mcs, c1. split; [|split; [exact L1|]].
  - replace (length ops) with (length h); [exact Ei|]. rewrite <- (map_length snd h), Hm, map_length. reflexivity.
  - intros c2 Es L2. apply (step_iff8 e p c1 (snd st1) (fst st1) W1 He L1 op g w' Hf E); [|exact Hd].
    exists c2. auto.
Qed.

(** ** Reading the list *)
(** Where registers V0 to VE are named, these never depart. *)
Theorem C76_never : forall e f w op, ~ In Vf (registers_named op) ->
  match op with
  | Sys _ | Cls | JpNonV0Indexed _ | SeImmediate _ _ | SneImmediate _ _ | SeVxVy _ _ | SneVxVy _ _
  | LdImmediate _ _ | AddImmediate _ _ | LdVxVy _ _ | Or _ _ | And _ _ | Xor _ _ | LdAbsolute _ | Rnd _ _
  | Skp _ | Sknp _ | LdDelayTimerDestTx _ | LdSoundTimerDestTx _ | AddIRegisterIndexed _ | LdBcd _
  | StoreRegistersToMemory _ | ReadRegistersFromMemory _ => True
  | _ => False
  end -> ~ departs8 e f w op.
Proof. intros e f w op H K [Hd|Hd]; [contradiction|]. destruct op; contradiction. Qed.

(** These always do. *)
Theorem C76_always : forall e f w op,
  In Vf (registers_named op) \/
  match op with
  | Call _ | Ret | AddVxVy _ _ | Sub _ _ | Subn _ _ | Shr _ _ | Shl _ _ | Drw _ _ _ => True
  | _ => False
  end -> departs8 e f w op.
Proof. intros e f w op [H|K]; [left; exact H|]. right. destruct op; try contradiction; exact I. Qed.

(** A timer that was set less than 1/60 s ago, or has run out at either rate,
    reads the same. *)
Theorem C76_timer : forall e f w x, u8 (f PDelay) -> x <> Vf ->
  (env_time e (w_time w) < f PDelayAt + 16666667 \/ f PDelayAt + 255 * 1000000000 <= env_time e (w_time w)) ->
  ~ departs8 e f w (LdDelayTimerSrcTx x).
Proof.
  intros e f w x B Hx K [[->|[]]|Hd]; [congruence|]. apply Hd. clear Hd. unfold u8 in B.
  unfold ref_timer, clocked. destruct K as [K|K].
  - replace (Z.max 0 (env_time e (w_time w) - f PDelayAt) * 60 / 1000000000) with 0 by lia.
    replace (Z.max 0 (env_time e (w_time w) - f PDelayAt) / 1000000000) with 0 by lia. lia.
  - lia.
Qed.

(** ** Cases *)
(** ADD V1, 1 and JP 0x200, for ever. *)
Definition counting : chip8 := demo [0x71; 0x01; 0x12; 0x00] [] 0 None.
Definition count_ops (n : nat) : list opcode := flat_map (fun _ => [AddImmediate V1 1; JpNonV0Indexed 0x200]) (seq 0 n).
Example counting_wf : well_formed counting.
Proof. apply demo_wf. vm_compute. reflexivity. Qed.

Example C76_case : forall n p, exists mcs c',
  iterate env0 p (2 * n) counting w0 = Ok (mcs, c', w0) /\
  looks c' (upd (observe counting) (PV 1) (Z.of_nat n mod 256)).
Proof.
  intros n p.
  assert (Hrun : forall n k f, 0 <= k < 256 -> (forall q, f q = upd (observe counting) (PV 1) k q) ->
            exists g, ref_run env0 (count_ops n) (f, w0) (g, w0) /\
              forall q, g q = upd (observe counting) (PV 1) ((k + Z.of_nat n) mod 256) q).
  { clear n. intros n. unfold count_ops. generalize 0%nat as from. induction n as [|n IH]; intros from k f Hk Hf.
    - exists f. split; [constructor|]. intros q. rewrite Hf. replace ((k + Z.of_nat 0) mod 256) with k by lia. reflexivity.
    - cbn [seq flat_map app].
      destruct (IH (Datatypes.S from) ((k + 1) mod 256)
        (goto (onward f (set V1 ((rv f V1 + 1) mod 256) f)) 0x200)) as (g & R & Hg); [lia| |].
      { intros q. unfold onward, goto, set, rv, upd. destruct q; cbn [part_eqb gp_index]; rewrite ?Hf; unfold upd; cbn [part_eqb]; try reflexivity.
        match goal with |- context [1 =? ?z] => destruct (1 =? z) eqn:Ez; rewrite ?Z.eqb_refl, ?Ez; reflexivity end. }
      exists g. split.
      + eapply ref_next; [|reflexivity| |eapply ref_next; [|reflexivity| |exact R]].
        * split; [cbn [operands_ok]; unfold u8; lia|]. rewrite !Hf. vm_compute. split; [discriminate|reflexivity].
        * apply C76_never; [intros [K|[]]; discriminate|exact I].
        * split; [cbn [operands_ok]; unfold u8; lia|]. unfold onward, goto, set, upd. cbn [part_eqb]. rewrite !Hf. vm_compute. split; [discriminate|reflexivity].
        * apply C76_never; [intros []|exact I].
      + intros q. rewrite Hg. unfold upd. replace (((k + 1) mod 256 + Z.of_nat n) mod 256) with ((k + Z.of_nat (Datatypes.S n)) mod 256) by lia.
        reflexivity. }
  destruct (Hrun n 0 (observe counting)) as (g & R & Hg); [lia| |].
  { intros q. unfold upd. destruct (part_eqb (PV 1) q) eqn:E; [|reflexivity].
    destruct q; try discriminate. cbn [part_eqb] in E. apply Z.eqb_eq in E as <-. reflexivity. }
  destruct (C76_run env0 p counting _ (observe counting, w0) _ env0_ok counting_wf (fun q => eq_refl) R) as (mcs & c' & E & L).
  exists mcs, c'. cbn [fst snd] in *. split.
  - replace (2 * n)%nat with (length (count_ops n)); [exact E|].
    clear. unfold count_ops. assert (K : forall m, length (flat_map (fun _ : nat => [AddImmediate V1 1; JpNonV0Indexed 0x200]) (seq m n)) = (2 * n)%nat).
    { induction n as [|n IH]; intros m; [reflexivity|]. cbn [seq flat_map length app]. rewrite IH. lia. }
    apply K.
  - intros q. rewrite L, Hg. reflexivity.
Qed.

(** JP V0, 0xfff with V0 = 2 goes to 0x1001 on the reference and to 1 here. *)
Example C76_departure : let c := demo [0xbf; 0xff] [(V0, 2)] 0 None in
  ref_fetches (observe c) (JpV0Indexed 0xfff) /\ departs8 env0 (observe c) w0 (JpV0Indexed 0xfff) /\
  exists c', step env0 Debug c w0 = Ok (c', w0) /\ observe c' PPC = 1.
Proof.
  cbv zeta. split; [split; [cbn [operands_ok]; lia|vm_compute; split; [discriminate|reflexivity]]|].
  split; [right; vm_compute; discriminate|].
  eexists. split; vm_compute; reflexivity.
Qed.

Print Assumptions C76_step_iff.
Print Assumptions C76_run.
Print Assumptions C76_run_cpu.
Print Assumptions C76_first_departure.
Print Assumptions C76_never.
Print Assumptions C76_always.
Print Assumptions C76_timer.
