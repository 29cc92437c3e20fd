(** C146: code that passes the progress check of C145 keeps its pace in calls of
    [run], whatever the host does in between, and on the CHIP-8 of the technical
    reference. *)
From Verif Require Import Base Arith ModelMap ModelStep ModelDisplay ModelChip8 ModelOpsChip8 ModelRunChip8 SpecMap Link6502
  SpecChip8 SpecChip8Parts SpecChip8Run ProofChip8 ProofChip8Step ProofChip8Reach ProofChip8Run PropertiesChip8Run
  SpecReference8 ProofReference8 PropertiesReference8 SpecRoutines8 ProofRoutines8 PropertiesRoutines8 SpecHost8 ProofHost8 SpecCheck8 ProofCheck8 PropertiesCheck8
  SpecTamper8 PropertiesTamper8 SpecPort8 ProofPort8 PropertiesPort8 SpecSecret8 ProofSecret8 PropertiesSecret8 SpecBudget8 PropertiesBudget8.

Section Loop.
Variables (e : environment) (p : profile) (l : listing8) (text : Z -> Z) (B : budget8) (W : Z).
Hypothesis He : env_ok e.
Hypothesis Hp : passes8 p text l = true.
Hypothesis Ht : in_time8 B W l = true.

Lemma mark_loop : forall b c t1 t2 w, sane l text c -> remaining B (observe c) <= Z.of_nat b ->
  exists j d a1 a2 w', 1 <= Z.of_nat j <= remaining B (observe c) /\ run_loop e p j c (retimed c t1 t2) w = Ok (retimed d a1 a2, w') /\ marked8 B (observe d PPC) = true.
Proof.
  induction b as [|b IH]; intros c t1 t2 w Sa Hb; pose proof (remaining_range p l text B W Hp Ht c Sa) as R; [lia|].
  destruct (one_less e p l text B W He Hp Ht c w Sa) as (c1 & w1 & Es & S1 & M). destruct (next_step e p c w c1 w1 Es) as (mcs & N).
  pose proof Sa as (Wf & (m & En & _) & _). destruct (sane_op p l text text (mkPolicy8 (fun _ => false) (fun _ _ => false)) text Hp c m Sa En) as (O & F).
  pose proof (replayed e p c w (op8 m) mcs c1 w1 Wf O F N t1 t2 w1) as X. destruct (stamped_by e (op8 m) t1 t2 (w_time w1)) as [[a1 a2] tb].
  destruct M as [M|M].
  - exists 1%nat, c1, a1, a2, (mkWorld tb (w_random w1)). split; [lia|]. split; [|exact M]. cbn [run_loop]. rewrite N. cbn [bind]. rewrite X. reflexivity.
  - destruct (IH c1 a1 a2 (mkWorld tb (w_random w1)) S1 ltac:(lia)) as (j & d & b1 & b2 & w' & J & E & Mk).
    exists (S j), d, b1, b2, w'. split; [lia|]. split; [|exact Mk]. cbn [run_loop]. rewrite N. cbn [bind]. rewrite X. exact E.
Qed.
End Loop.

(** Some call of [run] with [W] cycles at most returns with the machine at a
    marked instruction. *)
Theorem C146_run_comes_to_a_mark : forall e p c l B W, env_ok e -> checked8 p c l -> in_time8 B W l = true ->
  forall w, exists n c' w', 1 <= Z.of_nat n <= W /\ run e p c n w = Ok (Ready c', w') /\ marked8 B (observe c' PPC) = true.
Proof.
  intros e p c l B W He Hc Ht w. pose proof (checked_sane p c l Hc) as S. destruct Hc as (_ & Hp & _). pose proof (remaining_range p l _ B W Hp Ht c S) as R.
  destruct (mark_loop e p l _ B W He Hp Ht (Z.to_nat W) c (written_at (c8_dt c)) (written_at (c8_st c)) w S ltac:(lia)) as (j & d & a1 & a2 & w' & J & E & M).
  rewrite retimed_self in E. exists j, (retimed d a1 a2), w'. split; [lia|]. unfold run. rewrite E. cbn [bind]. split; [reflexivity|exact M].
Qed.

(** So it is after any calls of [run], of any lengths, between which the host
    changes the machine as in C140: the host cannot put the marks off. *)
Theorem C146_the_host_cannot_delay_it : forall e p c l B W, env_ok e -> checked8 p c l -> in_time8 B W l = true ->
  forall ns c', session8 e p l c ns c' -> forall c1, tampers8 l c' c1 ->
  forall w, exists n c2 w', 1 <= Z.of_nat n <= W /\ run e p c1 n w = Ok (Ready c2, w') /\ marked8 B (observe c2 PPC) = true.
Proof.
  intros e p c l B W He Hc Ht ns c' Hs c1 T w.
  exact (C146_run_comes_to_a_mark e p c1 l B W He (checked_tampered p c' l c1 (proj1 (session_checked e p l c ns c' He Hs Hc)) T) Ht w).
Qed.

(** On the reference machine, for code that passes the portability check: from
    any state it gets to, a mark is at most [W] instructions away. *)
Theorem C146_on_the_reference : forall e p held c l f K w B W, env_ok e -> ported8 p held c l f -> keeps_held held K -> in_time8 B W l = true ->
  forall m, exists j f' w', 1 <= Z.of_nat j <= W /\ ref_plays e K 0 (m + j) (f, w) (f', w') /\ marked8 B (f' PPC) = true.
Proof.
  intros e p held c l f K w B W He Hf HK Ht m. pose proof Hf as (Hc & _). destruct (C145_marks_in_time e p c l B W He Hc Ht K w m) as (j & c' & w' & J & E & M).
  destruct (C137_same_on_the_reference e p held c l f K w He Hf HK (m + j)) as (d & f' & w1 & E1 & X & L & _). assert (d = c') by congruence. assert (w1 = w') by congruence. subst.
  exists j, f', w'. split; [exact J|]. split; [exact X|]. rewrite <- (L PPC). exact M.
Qed.

(** ** A concrete case *)
(** The program of C143, under a host that calls [run] with 7, 50 and 300
    cycles and presses a key each time, and on the reference machine. *)
Example C146_case : exists c, checked8 Debug c encode_notes /\
  (forall ns c', session8 env0 Debug encode_notes c ns c' -> forall w, exists n c2 w', 1 <= Z.of_nat n <= 98 /\
    run env0 Debug (with_interrupt c' (Some (InterruptKeyPress Key5))) n w = Ok (Ready c2, w') /\ observe c2 PPC = 0x21a) /\
  (exists c', session8 env0 Debug encode_notes c [7; 50; 300]%nat c') /\
  forall m, exists j f' w', 1 <= Z.of_nat j <= 98 /\ ref_plays env0 (fun _ => None) 0 (m + j) (observe c, w0) (f', w') /\ f' PPC = 0x21a.
Proof.
  destruct (demo_checked Debug (LdImmediate V1 0) (tl encode_code) anything (tl encode_known)) as (c & Hc & Hpc).
  - repeat constructor; cbn; unfold u8; lia.
  - cbn. lia.
  - vm_compute. reflexivity.
  - reflexivity.
  - intros k. unfold anything, ranged. cbn [g_v]. destruct (k =? 0), (k =? 1); reflexivity.
  - reflexivity.
  - exists c. split; [exact Hc|].
    assert (T : forall d, checked8 Debug d encode_notes -> tampers8 encode_notes d (with_interrupt d (Some (InterruptKeyPress Key5)))).
    { intros d Hd. pose proof Hd as (_ & _ & n & En & _). exact (proj1 (C140_what_the_host_may_do Debug d encode_notes n Hd En) _). }
    split; [|split].
    + intros ns c' Hs w. pose proof (proj1 (session_checked env0 Debug encode_notes c ns c' env0_ok Hs Hc)) as Hc'.
      destruct (C146_the_host_cannot_delay_it env0 Debug c encode_notes encode_budget 98 env0_ok Hc encode_in_time ns c' Hs _ (T c' Hc') w) as (n & c2 & w' & N & E & M).
      exists n, c2, w'. split; [exact N|]. split; [exact E|]. apply Z.eqb_eq. exact M.
    + assert (Go : forall ns d, checked8 Debug d encode_notes -> exists c', session8 env0 Debug encode_notes d ns c').
      { induction ns as [|n ns IH]; intros d Hd; [exists d; constructor|]. pose proof (checked_tampered Debug d encode_notes _ Hd (T d Hd)) as Hd1.
        destruct (C132_run_never_panics env0 Debug _ encode_notes env0_ok Hd1 n w0) as (d2 & w2 & E & _).
        destruct (IH d2 (proj1 (checked_run env0 Debug _ encode_notes n w0 d2 w2 env0_ok Hd1 E))) as (c' & S). exists c'. exact (session8_slice _ _ _ d _ d2 c' n ns w0 w2 (T d Hd) E S). }
      exact (Go _ c Hc).
    + intros m. destruct (C146_on_the_reference env0 Debug false c encode_notes (observe c) (fun _ => None) w0 encode_budget 98 env0_ok) with (m := m) as (j & f' & w' & J & X & M).
      * split; [exact Hc|]. split; [vm_compute; reflexivity|]. intros q. reflexivity.
      * intros N. discriminate N.
      * exact encode_in_time.
      * exists j, f', w'. split; [exact J|]. split; [exact X|]. apply Z.eqb_eq. exact M.
Qed.

Print Assumptions C146_run_comes_to_a_mark.
Print Assumptions C146_the_host_cannot_delay_it.
Print Assumptions C146_on_the_reference.
