(** C143: CHIP-8 code that passes the checks of C132 and SpecSecret8.v tells
    nothing about its secrets. *)
From Verif Require Import Base Arith ModelMap ModelStep ModelDisplay ModelChip8 ModelOpsChip8 ModelRunChip8 SpecMap Link6502
  SpecChip8 SpecChip8Parts SpecChip8Run ProofChip8 ProofChip8Step ProofChip8Reach ProofChip8Run PropertiesChip8Run
  SpecRoutines8 ProofRoutines8 PropertiesRoutines8 SpecHost8 ProofHost8 SpecCheck8 ProofCheck8 PropertiesCheck8 SpecTamper8 PropertiesTamper8 SpecSecret8 ProofSecret8.

(** ** What [run] does with the times *)
(** The times at which the timers were set, and the next question to the clock. *)
Definition stamped_by (e : environment) (op : opcode) (t1 t2 : Z) (tb : nat) : Z * Z * nat :=
  match op with
  | LdDelayTimerDestTx _ => (env_time e tb, t2, S tb)
  | LdSoundTimerDestTx _ => (t1, env_time e tb, S tb)
  | _ => (t1, t2, tb)
  end.

Lemma replay_untimed_one e p mc c w c' w' : replayable mc -> untimed mc -> execute_mut e p (c, w) mc = Ok (c', w') ->
  forall t1 t2 wb, execute_mut e p (retimed c t1 t2, wb) mc = Ok (retimed c' t1 t2, wb).
Proof.
  intros Hr Hu E t1 t2 wb.
  assert (K : forall A B (a a' : A) (b b' : B), Ok (a, b) = Ok (a', b') -> a' = a) by (intros; congruence).
  destruct mc as [a v|[r|[|]] v|[r|[|]] v|r v|[|] v|[|] v|r v|v|v|k| |[x y] v|s t v]; cbn [replayable] in Hr; cbn [untimed] in Hu; try contradiction;
    cbn [execute_mut exec_write8 exec_inc8 exec_write16 exec_inc16] in *;
    try (apply K in E as ->; reflexivity).
  - unfold exec_write_memory in *. change (c8_space (retimed c t1 t2)) with (c8_space c).
    destruct (am_write p (c8_space c) a v) as [[m [b|]]|]; cbn [bind] in *; try discriminate. apply K in E as ->. reflexivity.
  - change (c8_gp (retimed c t1 t2)) with (c8_gp c).
    destruct (vec_set (c8_gp c) (gp_index r) v) as [gp|]; cbn [bind] in *; [|discriminate]. apply K in E as ->. reflexivity.
  - change (c8_gp (retimed c t1 t2)) with (c8_gp c). change (read_gp_register (retimed c t1 t2) r) with (read_gp_register c r).
    destruct (read_gp_register c r) as [b|]; cbn [bind] in *; [|discriminate].
    destruct (vec_set (c8_gp c) (gp_index r) _) as [gp|]; cbn [bind] in *; [|discriminate]. apply K in E as ->. reflexivity.
  - unfold exec_push in *. change (c8_stack (retimed c t1 t2)) with (c8_stack c). change (c8_sp (retimed c t1 t2)) with (c8_sp c).
    destruct (ring_write _ _ _) as [[m [b|]]|]; cbn [bind] in *; try discriminate. apply K in E as ->. reflexivity.
  - change (c8_display (retimed c t1 t2)) with (c8_display c).
    destruct (write_pixel_mut _ _ _ _) as [[d o]|]; cbn [bind] in *; [|discriminate]. apply K in E as ->. reflexivity.
  - unfold exec_set_range in *. destruct s as [sx sy], t as [tx ty].
    change (c8_display (retimed c t1 t2)) with (c8_display c).
    repeat match type of E with
    | bind ?g _ = _ => match g with bind ?x _ => let z := fresh in destruct x as [z|]; cbn [bind] in *; [|discriminate] end
    end. apply K in E as ->. reflexivity.
Qed.
Lemma replay_untimed e p mcs : Forall replayable mcs -> Forall untimed mcs -> forall c w c' w', execute_all e p mcs (c, w) = Ok (c', w') ->
  forall t1 t2 wb, execute_all e p mcs (retimed c t1 t2, wb) = Ok (retimed c' t1 t2, wb).
Proof.
  unfold execute_all. induction 1 as [|mc mcs Hm F IH]; intros U c w c' w' E t1 t2 wb; cbn [foldM] in *.
  - assert (c' = c) as -> by congruence. reflexivity.
  - destruct (execute_mut e p (c, w) mc) as [[c1 w1]|] eqn:E1; [|discriminate]. cbn [bind] in E. apply Forall_cons_iff in U as [U1 U2].
    rewrite (replay_untimed_one e p mc c w c1 w1 Hm U1 E1 t1 t2 wb). cbn [bind]. exact (IH U2 c1 w1 c' w' E t1 t2 wb).
Qed.

Lemma replayed e p c w op mcs c' w' : well_formed c -> operands_ok op -> fetches p c (encode op) -> next e p c w = Ok (mcs, c', w') ->
  forall t1 t2 wb, let '(a1, a2, tb) := stamped_by e op t1 t2 (w_time wb) in
  execute_all e p mcs (retimed c t1 t2, wb) = Ok (retimed c' a1 a2, mkWorld tb (w_random wb)).
Proof.
  intros W Hop Hf E t1 t2 wb.
  assert (K : forall A B (a a' : A) (b b' : B), Ok (a, b) = Ok (a', b') -> a' = a) by (intros; congruence). pose proof (next_replayable _ _ _ _ _ _ _ E) as R. rewrite (next_unfold e p c w op W Hop Hf) in E.
  destruct (generate e p op c w) as [[g w1]|] eqn:G; cbn [bind] in E; [|discriminate].
  destruct (execute_all e p (g ++ [Inc16bitRegister WordPc 2]) (c, w1)) as [[c1 w2]|] eqn:X; cbn [bind] in E; [|discriminate].
  assert (mcs = g ++ [Inc16bitRegister WordPc 2]) by congruence. assert (c1 = c') by congruence. subst. clear E.
  assert (U : match op with LdDelayTimerDestTx _ | LdSoundTimerDestTx _ => True | _ => Forall untimed (g ++ [Inc16bitRegister WordPc 2]) end).
  { pose proof (proj2 (generate_kinds _ _ _ _ _ _ _ G)) as U. destruct op; try exact I; (apply Forall_app; split; [exact U|repeat constructor]). }
  destruct op; cbn [stamped_by]; try (rewrite (replay_untimed e p _ R U c w1 c' w2 X t1 t2 wb); destruct wb; reflexivity).
  all: unfold generate, gen_ld_sound, gen_ld_delay in G; destruct (read_gp_register c r) as [z|]; cbn [bind] in G; [|discriminate G].
  - assert (g = [Write8bitRegister (ByteTimer Sound) z]) by congruence. subst g. unfold execute_all in *.
    cbn [app foldM execute_mut exec_write8 exec_inc16 clock_with_value now bind] in *. apply K in X as ->. destruct wb. reflexivity.
  - assert (g = [Write8bitRegister (ByteTimer Delay) z]) by congruence. subst g. unfold execute_all in *.
    cbn [app foldM execute_mut exec_write8 exec_inc16 clock_with_value now bind] in *. apply K in X as ->. destruct wb. reflexivity.
Qed.

(** ** Two machines *)
Section Pair.
Variables (e : environment) (p : profile) (l : listing8) (f1 f2 : Z -> Z) (P : policy8).
Hypothesis He : env_ok e.
Hypothesis Hp1 : passes8 p f1 l = true.
Hypothesis Hp2 : passes8 p f2 l = true.
Hypothesis Hk : keeps_secrets8 P l = true.

Lemma sane_op text (Hp : passes8 p text l = true) c n : sane l text c -> noted8 l (observe c PPC) = Some n -> operands_ok (op8 n) /\ fetches p c (encode (op8 n)).
Proof.
  intros (Wf & _ & Hm) En. destruct (noted8_ok p l text Hp _ _ En) as (Ha & Hin & Hok). unfold instruction_ok8 in Hok.
  rewrite !andb_true_iff in Hok. destruct Hok as ((((((B1 & B2) & B3) & B4) & B5) & B6) & B7). split; [exact (operands_okb_ok _ B3)|].
  split; [right; lia|]. rewrite <- Ha. rewrite (Z.mod_small (at8 n + 1)) by lia. rewrite !(code_kept8 p l text Hp c n _ Hm Hin) by lia. lia.
Qed.

Lemma alike_loop : forall n c1 c2 t1 t2 w, sane l f1 c1 -> sane l f2 c2 -> look_alike8 P c1 c2 ->
  exists d1 d2 a1 a2 w', run_loop e p n c1 (retimed c1 t1 t2) w = Ok (retimed d1 a1 a2, w') /\ run_loop e p n c2 (retimed c2 t1 t2) w = Ok (retimed d2 a1 a2, w') /\
    look_alike8 P d1 d2.
Proof.
  induction n as [|n IH]; intros c1 c2 t1 t2 w S1 S2 A; [exists c1, c2, t1, t2, w; auto|].
  destruct (alike_step e p l f1 f2 P He Hp1 Hp2 Hk c1 c2 w S1 S2 A) as (d1 & d2 & w1 & E1 & E2 & S1' & S2' & A').
  destruct (next_step e p c1 w d1 w1 E1) as (m1 & N1). destruct (next_step e p c2 w d2 w1 E2) as (m2 & N2). cbn [run_loop]. rewrite N1, N2. cbn [bind].
  pose proof S1 as (W1 & (m & En & _) & _). pose proof S2 as (W2 & _). destruct (sane_op f1 Hp1 c1 m S1 En) as (O & F1).
  assert (Epc : observe c1 PPC = observe c2 PPC) by (apply A; reflexivity). rewrite Epc in En. destruct (sane_op f2 Hp2 c2 m S2 En) as (_ & F2).
  pose proof (replayed e p c1 w (op8 m) m1 d1 w1 W1 O F1 N1 t1 t2 w1) as X1. pose proof (replayed e p c2 w (op8 m) m2 d2 w1 W2 O F2 N2 t1 t2 w1) as X2.
  destruct (stamped_by e (op8 m) t1 t2 (w_time w1)) as [[a1 a2] tb]. rewrite X1, X2. cbn [bind]. apply IH; assumption.
Qed.
Lemma alike_retimed d1 d2 a1 a2 : look_alike8 P d1 d2 -> look_alike8 P (retimed d1 a1 a2) (retimed d2 a1 a2).
Proof.
  intros A q Hq. change (observe (retimed d1 a1 a2) PPC) with (observe d1 PPC) in Hq. specialize (A q Hq). destruct q; first [exact A|reflexivity].
Qed.
End Pair.

(** ** The properties *)
(** Two machines that differ only in secrets: any number of instructions, with
    the same keys pressed and released in between, at the same times and with
    the same random numbers, leave them differing only in secrets; the clock
    and the random number generator have been asked equally often. *)
Theorem C143_secrets_never_show : forall e p c1 c2 l P, env_ok e -> checked8 p c1 l -> checked8 p c2 l -> keeps_secrets8 P l = true -> look_alike8 P c1 c2 ->
  forall K w m, exists c1' c2' w', play e p K 0 m c1 w = Ok (c1', w') /\ play e p K 0 m c2 w = Ok (c2', w') /\ look_alike8 P c1' c2'.
Proof.
  intros e p c1 c2 l P He H1 H2 Hk A K w m.
  exact (alike_plays e p l _ _ P He (proj1 (proj2 H1)) (proj1 (proj2 H2)) Hk K m 0 c1 c2 w (checked_sane p c1 l H1) (checked_sane p c2 l H2) A).
Qed.

(** The same for a call of [run]. *)
Theorem C143_run_alike : forall e p c1 c2 l P, env_ok e -> checked8 p c1 l -> checked8 p c2 l -> keeps_secrets8 P l = true -> look_alike8 P c1 c2 ->
  forall n w, exists c1' c2' w', run e p c1 n w = Ok (Ready c1', w') /\ run e p c2 n w = Ok (Ready c2', w') /\ look_alike8 P c1' c2'.
Proof.
  intros e p c1 c2 l P He H1 H2 Hk A n w.
  destruct (alike_loop e p l _ _ P He (proj1 (proj2 H1)) (proj1 (proj2 H2)) Hk n c1 c2 (written_at (c8_dt c1)) (written_at (c8_st c1)) w
    (checked_sane p c1 l H1) (checked_sane p c2 l H2) A) as (d1 & d2 & a1 & a2 & w' & E1 & E2 & A').
  assert (T1 : written_at (c8_dt c1) = written_at (c8_dt c2)) by exact (A PDelayAt eq_refl).
  assert (T2 : written_at (c8_st c1) = written_at (c8_st c2)) by exact (A PSoundAt eq_refl).
  rewrite retimed_self in E1. rewrite T1, T2, retimed_self in E2. unfold run. rewrite E1, E2. cbn [bind].
  exists (retimed d1 a1 a2), (retimed d2 a1 a2), w'. split; [reflexivity|]. split; [reflexivity|]. exact (alike_retimed P d1 d2 a1 a2 A').
Qed.

(** And for any number of calls, between which two hosts change their machines
    as in C140, in ways that differ only in secrets: each call leaves the
    machines differing only in secrets. *)
Theorem C143_with_hosts : forall e p c1 c2 l P, env_ok e -> checked8 p c1 l -> checked8 p c2 l -> keeps_secrets8 P l = true ->
  forall ns1 ns2 d1 d2, session8 e p l c1 ns1 d1 -> session8 e p l c2 ns2 d2 ->
  forall d1' d2', tampers8 l d1 d1' -> tampers8 l d2 d2' -> look_alike8 P d1' d2' ->
  forall n w, exists e1 e2 w', run e p d1' n w = Ok (Ready e1, w') /\ run e p d2' n w = Ok (Ready e2, w') /\ look_alike8 P e1 e2.
Proof.
  intros e p c1 c2 l P He H1 H2 Hk ns1 ns2 d1 d2 S1 S2 d1' d2' T1 T2 A n w.
  apply (C143_run_alike e p d1' d2' l P He); try assumption.
  - exact (checked_tampered p d1 l d1' (proj1 (session_checked e p l c1 ns1 d1 He S1 H1)) T1).
  - exact (checked_tampered p d2 l d2' (proj1 (session_checked e p l c2 ns2 d2 He S2 H2)) T2).
Qed.

(** ** Concrete cases *)
(** Encode the eight secret bytes at 300 to 310, over and over, and set the
    delay timer after each round. *)
Definition encode_code : list opcode :=
  [ LdImmediate V1 0;              (* 200 *)
    LdAbsolute 0x300;              (* 202 *)
    AddIRegisterIndexed V1;        (* 204 *)
    ReadRegistersFromMemory V0;    (* 206 *)
    LdImmediate V2 0x5a;           (* 208 *)
    Xor V2 V0;                     (* 20a *)
    LdVxVy V0 V2;                  (* 20c *)
    LdAbsolute 0x310;              (* 20e *)
    AddIRegisterIndexed V1;        (* 210 *)
    StoreRegistersToMemory V0;     (* 212 *)
    AddImmediate V1 1;             (* 214 *)
    SeImmediate V1 8;              (* 216 *)
    JpNonV0Indexed 0x202;          (* 218 *)
    LdDelayTimerDestTx V1;         (* 21a *)
    JpNonV0Indexed 0x200 ].        (* 21c *)
Definition encode_known : list ranges :=
  let r i v1 := ranged i any_byte v1 in
  [ anything; r any_word (0, 7); r (0x300, 0x300) (0, 7); r (0x300, 0x307) (0, 7); r any_word (0, 7); r any_word (0, 7); r any_word (0, 7);
    r any_word (0, 7); r (0x310, 0x310) (0, 7); r (0x310, 0x317) (0, 7); r any_word (0, 7); r any_word (1, 8); r any_word (1, 7); r any_word (8, 8); anything ].
Definition encode_notes : listing8 := annotated 0x200 encode_code encode_known.
(** Only V1 is public, once it is set. *)
Definition encode_policy : policy8 := mkPolicy8 (fun a => (0x300 <=? a) && (a <=? 0x31f)) (fun a k => (k =? 1) && negb (a =? 0x200)).

Lemma encode_keeps : keeps_secrets8 encode_policy encode_notes = true.
Proof. vm_compute. reflexivity. Qed.

(** A checked machine with a given word at 300, all else as in [c]. *)
Lemma with_secret c kk : checked8 Debug c encode_notes -> observe c PPC = 0x200 -> u8 kk ->
  exists c2, checked8 Debug c2 encode_notes /\ 256 * observe c2 (PMem 0x300) + observe c2 (PMem 0x301) = 0x6000 + kk /\
    forall q, shown encode_policy 0x200 q = true -> observe c2 q = observe c q.
Proof.
  intros Hc Hpc Hkk. destruct (PropertiesReplace8.put_instructions [LdImmediate V0 kk] c 0x300 (proj1 Hc) ltac:(lia) ltac:(cbn; lia)) as (c2 & W2 & (_ & _ & L2) & Ag).
  { repeat constructor; apply Hkk. }
  assert (K : forall q, (forall a, q = PMem a -> ~ (0x300 <= a <= 0x301)) -> observe c2 q = observe c q).
  { intros q Hq. apply Ag. destruct q; cbn [length SpecReplace8.in_piece]; try tauto. specialize (Hq _ eq_refl). change (2 * Z.of_nat 1) with 2. lia. }
  exists c2. split; [|split].
  - apply checked_tampered with c; [exact Hc|]. split; [exact W2|]. split; [apply K; discriminate|]. split.
    + intros n Hin. assert (B : 0x200 <= at8 n <= 0x21c).
      { assert (T : forallb (fun n => (0x200 <=? at8 n) && (at8 n <=? 0x21c)) encode_notes = true) by reflexivity.
        rewrite forallb_forall in T. specialize (T n Hin). lia. }
      split; apply K; intros a Ea; assert (Ea' : a = at8 n \/ a = at8 n + 1) by (first [left; congruence|right; congruence]); lia.
    + intros n En. destruct Hc as (_ & _ & (n' & En' & Wn)). assert (n' = n) by congruence. subst n'.
      apply within_alike with (observe c); [apply K; discriminate|intros k _; apply K; discriminate| |exact Wn].
      rewrite (K PSP) by discriminate. apply K. discriminate.
  - pose proof (L2 0%nat (LdImmediate V0 kk) eq_refl) as L. replace (0x300 + 2 * Z.of_nat 0) with 0x300 in L by lia. replace (0x300 + 1) with 0x301 in L by lia.
    rewrite L. unfold encode. cbn [gp_index]. lia.
  - intros q Hq. apply K. intros a ->. cbn in Hq. lia.
Qed.

(** Whatever the secrets, the machines do the same for ever. *)
Example C143_case : forall k1 k2, u8 k1 -> u8 k2 -> exists c1 c2,
  256 * observe c1 (PMem 0x300) + observe c1 (PMem 0x301) = 0x6000 + k1 /\ 256 * observe c2 (PMem 0x300) + observe c2 (PMem 0x301) = 0x6000 + k2 /\
  forall n, exists c1' c2' w', run env0 Debug c1 n w0 = Ok (Ready c1', w') /\ run env0 Debug c2 n w0 = Ok (Ready c2', w') /\ look_alike8 encode_policy c1' c2'.
Proof.
  intros k1 k2 H1 H2. destruct (demo_checked Debug (LdImmediate V1 0) (tl encode_code) anything (tl encode_known)) as (c & Hc & Hpc).
  - repeat constructor; cbn; unfold u8; lia.
  - cbn. lia.
  - vm_compute. reflexivity.
  - reflexivity.
  - intros k. unfold anything, ranged. cbn [g_v]. destruct (k =? 0), (k =? 1); reflexivity.
  - reflexivity.
  - destruct (with_secret c k1 Hc Hpc H1) as (c1 & C1 & E1 & A1). destruct (with_secret c k2 Hc Hpc H2) as (c2 & C2 & E2 & A2).
    exists c1, c2. split; [exact E1|]. split; [exact E2|]. intros n. apply (C143_run_alike env0 Debug c1 c2 encode_notes encode_policy env0_ok C1 C2 encode_keeps).
    intros q Hq. rewrite (A1 PPC), Hpc in Hq by reflexivity. rewrite A1, A2 by exact Hq. reflexivity.
Qed.

(** Code that does not pass: a skip on a secret, a secret written to public
    memory, put into I or a timer, or handed over as public. *)
Definition about (ops : list opcode) : listing8 := annotated 0x200 ops (map (fun _ => ranged (0x2f8, 0x308) any_byte any_byte) ops).
Definition tells8 (ops : list opcode) (op : Z -> Z -> bool) : bool := negb (keeps_secrets8 (mkPolicy8 (fun a => 0x300 <=? a) op) (about ops)).
Example C143_refused :
  tells8 [SeImmediate V0 1; JpNonV0Indexed 0x200; JpNonV0Indexed 0x200] (fun _ _ => false) = true /\
  tells8 [StoreRegistersToMemory V0; JpNonV0Indexed 0x200] (fun _ _ => false) = true /\
  tells8 [AddIRegisterIndexed V0; JpNonV0Indexed 0x200] (fun _ _ => false) = true /\
  tells8 [LdSoundTimerDestTx V3; JpNonV0Indexed 0x200] (fun _ _ => false) = true /\
  tells8 [LdVxVy V1 V0; JpNonV0Indexed 0x200] (fun _ k => k =? 1) = true /\
  tells8 [ReadRegistersFromMemory V1; JpNonV0Indexed 0x200] (fun _ k => k =? 1) = true.
Proof. vm_compute. repeat split. Qed.
Example C143_not_refused :
  tells8 [SeImmediate V0 1; JpNonV0Indexed 0x200; JpNonV0Indexed 0x200] (fun _ k => k =? 0) = false /\
  tells8 [LdVxVy V1 V0; JpNonV0Indexed 0x200] (fun _ k => k =? 0) = false /\
  tells8 [ReadRegistersFromMemory V1; JpNonV0Indexed 0x200] (fun _ k => k =? 2) = false.
Proof. vm_compute. repeat split. Qed.

Print Assumptions C143_secrets_never_show.
Print Assumptions C143_run_alike.
Print Assumptions C143_with_hosts.
