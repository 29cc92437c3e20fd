(** C140: CHIP-8 code that passes the check of C132 stays in its code and in
    its ranges and never panics, whatever the host does to the key, the
    display, the timers and data between calls of [run]. *)
From Verif Require Import Base Arith ModelMap ModelStep ModelDisplay ModelChip8 ModelOpsChip8 ModelRunChip8 SpecMap Link6502
  SpecChip8 SpecChip8Parts SpecChip8Run ProofChip8 ProofChip8Step ProofChip8Reach ProofChip8Run PropertiesChip8Run
  SpecRoutines8 ProofRoutines8 PropertiesRoutines8 SpecHost8 ProofHost8 SpecCheck8 ProofCheck8 PropertiesCheck8 SpecTamper8.

(** ** A call of [run] *)
Lemma retimed_wf c a b : well_formed c -> well_formed (retimed c a b).
Proof. intros W. destruct W. constructor; assumption. Qed.

Lemma run_wf e p c l n w c' w' : env_ok e -> checked8 p c l -> run e p c n w = Ok (Ready c', w') -> well_formed c'.
Proof.
  intros He Hc E. unfold run in E. pose proof (run_loop_cases e p n c (written_at (c8_dt c)) (written_at (c8_st c)) w) as K.
  rewrite retimed_self in K. destruct (run_loop e p n c c w) as [[c1 w1]|]; cbn [bind] in E; [|discriminate].
  destruct K as (it & a1 & a2 & X & ->).
  assert (W : well_formed it).
  { assert (W0 : well_formed c) by apply Hc. clear - X W0 He. induction X as [c0 w0 t Ht|k c0 w0 c1 w1 t c2 w2 Es Ht X IH]; [exact W0|].
    apply IH. exact (step_wf e p c0 w0 c1 w1 W0 He Es). }
  assert (Ec : c' = retimed it a1 a2) by (unfold ss_from, ss_new in E; congruence). rewrite Ec. apply retimed_wf. exact W.
Qed.

Lemma code_bytes p f l n a : passes8 p f l = true -> In n l -> at8 n <= a <= at8 n + 1 -> ~ may_write l a.
Proof.
  intros Hp Hin Ha (n1 & [lo hi] & Hin1 & Ew & Hw). unfold passes8 in Hp. rewrite forallb_forall in Hp. specialize (Hp n1 Hin1).
  unfold instruction_ok8 in Hp. rewrite Ew in Hp. apply andb_prop in Hp as [H1 _]. apply andb_prop in H1 as [_ H1].
  rewrite forallb_forall in H1. specialize (H1 n Hin). unfold inside in Hw. cbn [fst snd] in Hw. lia.
Qed.

Lemma track_code p c l c' n a : passes8 p (fun a => observe c (PMem a)) l = true -> on_track l c c' -> In n l -> at8 n <= a <= at8 n + 1 ->
  observe c' (PMem a) = observe c (PMem a).
Proof.
  intros Hp (_ & Hm) Hin Ha. destruct (Z.eq_dec (observe c' (PMem a)) (observe c (PMem a))) as [E|N]; [exact E|]. exfalso.
  exact (code_bytes p _ l n a Hp Hin Ha (Hm a N)).
Qed.

Lemma checked_run e p c l n w c' w' : env_ok e -> checked8 p c l -> run e p c n w = Ok (Ready c', w') ->
  checked8 p c' l /\ on_track l c c'.
Proof.
  intros He Hc E. destruct (C132_run_never_panics e p c l He Hc n w) as (c1 & w1 & E1 & T). assert (c1 = c') by congruence. subst c1.
  split; [|exact T]. split; [exact (run_wf e p c l n w c' w' He Hc E)|]. destruct Hc as (_ & Hp & _). split; [|apply T].
  apply passes8_same with (fun a => observe c (PMem a)); [|exact Hp]. intros k Hin.
  rewrite !(track_code p c l c' k) by (assumption || lia). reflexivity.
Qed.

Lemma checked_tampered p c l c' : checked8 p c l -> tampers8 l c c' -> checked8 p c' l.
Proof.
  intros (_ & Hp & (n & En & _)) (W & Epc & Hcode & Hn). split; [exact W|]. split.
  - apply passes8_same with (fun a => observe c (PMem a)); [|exact Hp]. intros k Hin. destruct (Hcode k Hin) as [-> ->]. reflexivity.
  - exists n. rewrite Epc. split; [exact En|exact (Hn n En)].
Qed.

Lemma session_checked e p l c ns c' : env_ok e -> session8 e p l c ns c' -> checked8 p c l ->
  checked8 p c' l /\ forall n a, In n l -> at8 n <= a <= at8 n + 1 -> observe c' (PMem a) = observe c (PMem a).
Proof.
  intros He. induction 1 as [c|c c1 c2 c3 n ns w w' Ht Er Hs IH]; intros Hc; [auto|].
  pose proof (checked_tampered p c l c1 Hc Ht) as Hc1. destruct (checked_run e p c1 l n w c2 w' He Hc1 Er) as [Hc2 T].
  destruct (IH Hc2) as [Hc3 K]. split; [exact Hc3|]. intros k a Hin Ha. rewrite (K k a Hin Ha).
  destruct Hc1 as (_ & Hp1 & _). rewrite (track_code p c1 l c2 k a Hp1 T Hin Ha). destruct Ht as (_ & _ & Hcode & _). destruct (Hcode k Hin) as [K1 K2].
  assert (a = at8 k \/ a = at8 k + 1) as [-> | ->] by lia; assumption.
Qed.

(** ** The property *)
(** After any number of calls of [run], with any change of the machine before
    each of them that leaves the code and the program counter alone and keeps
    to the noted ranges, the machine is at an instruction of the listing and
    within its ranges, the code is as it was, and whatever the host does next,
    the next call returns too. *)
Theorem C140_the_host_cannot_derail_it : forall e p c l, env_ok e -> checked8 p c l ->
  forall ns c', session8 e p l c ns c' ->
  well_formed c' /\ (exists n, noted8 l (observe c' PPC) = Some n /\ within (observe c') (known n)) /\
  (forall n a, In n l -> at8 n <= a <= at8 n + 1 -> observe c' (PMem a) = observe c (PMem a)) /\
  forall c1, tampers8 l c' c1 -> forall n w, exists c2 w2, run e p c1 n w = Ok (Ready c2, w2).
Proof.
  intros e p c l He Hc ns c' Hs. destruct (session_checked e p l c ns c' He Hs Hc) as [Hc' K]. pose proof Hc' as (W & _ & Hn).
  split; [exact W|]. split; [exact Hn|]. split; [exact K|]. intros c1 Ht n w.
  destruct (C132_run_never_panics e p c1 l He (checked_tampered p c' l c1 Hc' Ht) n w) as (c2 & w2 & E & _). exists c2, w2. exact E.
Qed.

(** Each call changes only memory the check allows the code to write to. *)
Theorem C140_the_hosts_data_is_kept : forall e p c l, env_ok e -> checked8 p c l ->
  forall ns c', session8 e p l c ns c' ->
  forall c1, tampers8 l c' c1 -> forall n w c2 w2, run e p c1 n w = Ok (Ready c2, w2) ->
  forall a, ~ may_write l a -> observe c2 (PMem a) = observe c1 (PMem a).
Proof.
  intros e p c l He Hc ns c' Hs c1 Ht n w c2 w2 E a N. destruct (session_checked e p l c ns c' He Hs Hc) as [Hc' _].
  destruct (checked_run e p c1 l n w c2 w2 He (checked_tampered p c' l c1 Hc' Ht) E) as [_ (_ & Hm)].
  destruct (Z.eq_dec (observe c2 (PMem a)) (observe c1 (PMem a))) as [Eq|Ne]; [exact Eq|]. exfalso. exact (N (Hm a Ne)).
Qed.

(** What the library lets a host do is among those changes: pressing and
    releasing keys, drawing on the display, setting the timers, and setting a
    register or I to a value within the noted range. *)
Theorem C140_what_the_host_may_do : forall p c l n, checked8 p c l -> noted8 l (observe c PPC) = Some n ->
  (forall k, tampers8 l c (with_interrupt c k)) /\
  (forall g, display_ok (g (c8_display c)) -> tampers8 l c (with_display c g)) /\
  (forall t reg, u8 (clock_inner reg) -> tampers8 l c (with_timer_register c t reg)) /\
  (forall v, u16 v -> inside v (g_i (known n)) -> tampers8 l c (with_i_register c v)) /\
  (forall r v c', u8 v -> inside v (rng (known n) r) -> with_gp_register c r v = Ok c' -> tampers8 l c c').
Proof.
  intros p c l n (W & _ & (n0 & En0 & Wn)) En. assert (n0 = n) by congruence. subst n0.
  assert (G : forall c', well_formed c' -> observe c' PPC = observe c PPC -> (forall a, observe c' (PMem a) = observe c (PMem a)) ->
    within (observe c') (known n) -> tampers8 l c c').
  { intros c' W' H1 H2 H3. split; [exact W'|]. split; [exact H1|]. split; [intros m _; split; apply H2|]. intros m Em. assert (m = n) by congruence. subst m. exact H3. }
  destruct W as [W1 W2 W3 W4 W5 W6 W7 W8 W9].
  split; [intros k; apply G; [constructor; assumption|reflexivity|reflexivity|exact Wn]|].
  split; [intros g Hg; apply G; [constructor; assumption|reflexivity|reflexivity|exact Wn]|].
  split; [intros [] reg Hr; (apply G; [constructor; assumption|reflexivity|reflexivity|exact Wn])|].
  split.
  - intros v Hv Hi. apply G; [constructor; assumption|reflexivity|reflexivity|]. destruct Wn as (_ & A & B). split; [exact Hi|]. split; [exact A|exact B].
  - intros r v c' Hv Hi E. assert (Wc : well_formed c) by (constructor; assumption).
    assert (Hx : 0 <= gp_index r < 15).
    { pose proof (index_range r). destruct (Z.eq_dec (gp_index r) 15) as [E15|]; [|lia]. exfalso. assert (r = Vf) by (destruct r; cbn in E15; congruence). subst r.
      unfold with_gp_register in E. rewrite (ex_gp_vf c v Wc) in E. discriminate E. }
    destruct (ex_gp c (gp_index r) v Wc Hx Hv) as (gp & Eg & W' & Lk). unfold with_gp_register in E. rewrite Eg in E. cbn [bind] in E. assert (c' = set_gp c gp) by congruence. subst c'.
    apply G; [exact W'|reflexivity|reflexivity|]. destruct Wn as (A & B & C). split; [exact A|]. split; [|exact C].
    intros k Hk. rewrite (Lk (PV k)). unfold upd. cbn [part_eqb]. destruct (Z.eqb_spec (gp_index r) k) as [<-|Nk]; [exact Hi|].
    try replace (k =? gp_index r) with false by lia. exact (B k Hk).
Qed.

(** ** A concrete case *)
(** The table program of C132, on a host that before every call turns the
    display upside down, sets the delay timer to 60 and presses a key. *)
Definition meddled8 (c : chip8) : chip8 :=
  with_interrupt (with_timer_register (with_display c (@rev _)) Delay (mkClock 7 60)) (Some (InterruptKeyPress Key5)).
Lemma meddled8_tampers p l c : checked8 p c l -> tampers8 l c (meddled8 c).
Proof.
  intros ([W1 W2 W3 W4 W5 W6 W7 W8 W9] & _ & (n & En & Wn)). split; [|split; [reflexivity|split]].
  - constructor; try assumption.
    + destruct W7 as [L F]. split; [cbn; rewrite rev_length; exact L|]. apply Forall_rev. exact F.
    + cbn. unfold u8. lia.
  - intros m _. split; reflexivity.
  - intros m Em. assert (m = n) by congruence. subst m. exact Wn.
Qed.
Lemma session8_snoc e p l c ns c1 : session8 e p l c ns c1 -> forall c2 n w c3 w', tampers8 l c1 c2 -> run e p c2 n w = Ok (Ready c3, w') ->
  session8 e p l c (ns ++ [n]) c3.
Proof.
  induction 1 as [c|c a b d k ns w w' Ht Er Hs IH]; intros c2 n w1 c3 w2 Ht' Er'; cbn [app].
  - econstructor; [exact Ht'|exact Er'|constructor].
  - econstructor; [exact Ht|exact Er|]. eapply IH; eassumption.
Qed.

Example C140_case : exists c, checked8 Debug c table_notes /\ forall ns, exists c', session8 env0 Debug table_notes c ns c' /\
  (observe c' PPC = 0x208 -> 0x300 <= observe c' PI <= 0x30f).
Proof.
  destruct (demo_checked Debug (LdImmediate V1 0) (tl table_code) (ranged any_word any_byte any_byte) (tl table_known)) as (c & Hc & _).
  - repeat constructor; cbn; lia.
  - cbn. lia.
  - exact table_passes.
  - reflexivity.
  - intros k. unfold ranged. cbn [g_v]. destruct (k =? 0), (k =? 1); reflexivity.
  - reflexivity.
  - exists c. split; [exact Hc|]. intros ns.
    assert (S : exists c', session8 env0 Debug table_notes c ns c').
    { induction ns as [|n ns IH] using rev_ind; [eexists; constructor|]. destruct IH as (c' & Hs).
      destruct (C140_the_host_cannot_derail_it env0 Debug c _ env0_ok Hc ns c' Hs) as (_ & _ & _ & Hr).
      pose proof (meddled8_tampers Debug table_notes c' (proj1 (session_checked _ _ _ _ _ _ env0_ok Hs Hc))) as Ht.
      destruct (Hr _ Ht n w0) as (c2 & w2 & E). exists c2. exact (session8_snoc _ _ _ _ _ _ Hs _ _ _ _ _ Ht E). }
    destruct S as (c' & Hs). exists c'. split; [exact Hs|]. intros E8.
    destruct (C140_the_host_cannot_derail_it env0 Debug c _ env0_ok Hc ns c' Hs) as (_ & (n & En & Wn) & _).
    rewrite E8 in En. change (Some (mkNote8 0x208 (StoreRegistersToMemory V0) (ranged (0x300, 0x30f) any_byte (0, 15))) = Some n) in En.
    assert (En' : n = mkNote8 0x208 (StoreRegistersToMemory V0) (ranged (0x300, 0x30f) any_byte (0, 15))) by congruence. rewrite En' in Wn.
    destruct Wn as (Wi & _). exact Wi.
Qed.

Print Assumptions C140_the_host_cannot_derail_it.
Print Assumptions C140_the_hosts_data_is_kept.
Print Assumptions C140_what_the_host_may_do.
