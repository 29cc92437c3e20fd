(** C144: secrecy that was checked for the emulator holds on the CHIP-8 of the
    technical reference, for code that passes the portability check of C137. *)
From Verif Require Import Base Arith ModelMap ModelStep ModelDisplay ModelChip8 ModelOpsChip8 ModelRunChip8 SpecMap Link6502
  SpecChip8 SpecChip8Parts SpecChip8Run ProofChip8 ProofChip8Step ProofChip8Reach ProofChip8Run PropertiesChip8Run
  SpecReference8 ProofReference8 PropertiesReference8 SpecRoutines8 ProofRoutines8 PropertiesRoutines8 SpecHost8 ProofHost8 SpecCheck8 ProofCheck8 PropertiesCheck8
  SpecPort8 ProofPort8 PropertiesPort8 SpecSecret8 ProofSecret8 PropertiesSecret8.

(** Two states of the reference machine that differ only in secrets: whatever
    the first does, the second does at the same times, asking for as many
    random numbers, and they differ only in secrets afterwards. *)
Theorem C144_secret_on_the_reference : forall e p held c1 c2 l P f1 f2 K w, env_ok e -> ported8 p held c1 l f1 -> ported8 p held c2 l f2 -> keeps_held held K ->
  keeps_secrets8 P l = true -> (forall q, shown P (f1 PPC) q = true -> f1 q = f2 q) ->
  forall m, (exists f1' w', ref_plays e K 0 m (f1, w) (f1', w')) /\
    forall f1' w', ref_plays e K 0 m (f1, w) (f1', w') ->
    exists f2', ref_plays e K 0 m (f2, w) (f2', w') /\ forall q, shown P (f1' PPC) q = true -> f1' q = f2' q.
Proof.
  intros e p held c1 c2 l P f1 f2 K w He H1 H2 HK Hk A m.
  destruct (C137_same_on_the_reference e p held c1 l f1 K w He H1 HK m) as (d1 & g1 & w1 & E1 & X1 & L1 & _).
  destruct (C137_same_on_the_reference e p held c2 l f2 K w He H2 HK m) as (d2 & g2 & w2 & E2 & X2 & L2 & _).
  pose proof H1 as (Hc1 & _ & Lf1). pose proof H2 as (Hc2 & _ & Lf2).
  assert (Al : look_alike8 P c1 c2).
  { intros q Hq. rewrite (Lf1 PPC) in Hq. rewrite (Lf1 q), (Lf2 q). apply A. exact Hq. }
  destruct (C143_secrets_never_show e p c1 c2 l P He Hc1 Hc2 Hk Al K w m) as (e1 & e2 & w' & P1 & P2 & A').
  assert (e1 = d1) by congruence. assert (e2 = d2) by congruence. assert (w1 = w') by congruence. assert (w2 = w') by congruence. subst.
  split; [exists g1, w'; exact X1|]. intros f1' w0 X. pose proof (ref_plays_det _ _ _ _ _ _ X _ X1) as E. assert (f1' = g1) by congruence. assert (w0 = w') by congruence. subst.
  exists g2. split; [exact X2|]. intros q Hq. rewrite <- (L1 PPC) in Hq. rewrite <- (L1 q), <- (L2 q). apply A'. exact Hq.
Qed.

(** ** A concrete case *)
(** The program of C143 on the reference machine. *)
Example C144_case : portable_code false encode_notes = true /\
  forall k1 k2, u8 k1 -> u8 k2 -> exists f1 f2,
  256 * f1 (PMem 0x300) + f1 (PMem 0x301) = 0x6000 + k1 /\ 256 * f2 (PMem 0x300) + f2 (PMem 0x301) = 0x6000 + k2 /\
  forall m, exists f1' f2' w', ref_plays env0 (fun _ => None) 0 m (f1, w0) (f1', w') /\ ref_plays env0 (fun _ => None) 0 m (f2, w0) (f2', w') /\
    forall q, shown encode_policy (f1' PPC) q = true -> f1' q = f2' q.
Proof.
  assert (Hpo : portable_code false encode_notes = true) by (vm_compute; reflexivity). split; [exact Hpo|].
  intros k1 k2 H1 H2. destruct (demo_checked Debug (LdImmediate V1 0) (tl encode_code) anything (tl encode_known)) as (c & Hc & Hpc).
  - repeat constructor; cbn; unfold u8; lia.
  - cbn. lia.
  - vm_compute. reflexivity.
  - reflexivity.
  - intros k. unfold anything, ranged. cbn [g_v]. destruct (k =? 0), (k =? 1); reflexivity.
  - reflexivity.
  - destruct (with_secret c k1 Hc Hpc H1) as (c1 & C1 & E1 & A1). destruct (with_secret c k2 Hc Hpc H2) as (c2 & C2 & E2 & A2).
    exists (observe c1), (observe c2). split; [exact E1|]. split; [exact E2|]. intros m.
    destruct (C144_secret_on_the_reference env0 Debug false c1 c2 encode_notes encode_policy (observe c1) (observe c2) (fun _ => None) w0 env0_ok) with (m := m) as ((f1' & w' & X1) & X).
    + split; [exact C1|]. split; [exact Hpo|]. intros q. reflexivity.
    + split; [exact C2|]. split; [exact Hpo|]. intros q. reflexivity.
    + intros N. discriminate N.
    + exact encode_keeps.
    + intros q Hq. rewrite (A1 PPC), Hpc in Hq by reflexivity. rewrite A1, A2 by exact Hq. reflexivity.
    + destruct (X f1' w' X1) as (f2' & X2 & A'). exists f1', f2', w'. auto.
Qed.

Print Assumptions C144_secret_on_the_reference.
