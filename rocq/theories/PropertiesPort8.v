(** C137: CHIP-8 code that passes the static checks of SpecCheck8.v and
    SpecPort8.v does on the CHIP-8 of the technical reference what it does on
    the emulator, for ever. *)
From Verif Require Import Base Arith ModelMap ModelStep ModelDisplay ModelChip8 ModelOpsChip8 ModelRunChip8 SpecMap Link6502
  SpecChip8 SpecChip8Parts SpecChip8Run ProofChip8 ProofChip8Step ProofChip8Reach ProofChip8Run PropertiesChip8Run
  SpecReference8 ProofReference8 PropertiesReference8 SpecRoutines8 ProofRoutines8 PropertiesRoutines8 SpecReplace8 SpecLanguage8 SpecHost8 ProofHost8
  SpecCheck8 ProofCheck8 PropertiesCheck8 SpecPort8 ProofPort8.

(** After any number of instructions, while the host presses and releases
    keys, both machines are in the same state; neither has come to an
    instruction that it cannot execute. *)
Theorem C137_same_on_the_reference : forall e p held c l f K w, env_ok e -> ported8 p held c l f -> keeps_held held K ->
  forall m, exists c' f' w', play e p K 0 m c w = Ok (c', w') /\ ref_plays e K 0 m (f, w) (f', w') /\ looks c' f' /\ on_track l c c'.
Proof.
  intros e p held c l f K w He (Hc & Hp & Lf) HK m. pose proof (checked_sane p c l Hc) as S. destruct Hc as (_ & Hc & _).
  destruct (ported_plays e p held l _ He Hc Hp K m HK 0 c f w S Lf) as (c' & f' & w' & Ep & X & L' & S').
  exists c', f', w'. split; [exact Ep|]. split; [exact X|]. split; [exact L'|exact (sane_track l c c' S')].
Qed.

(** Whatever the reference machine does, the emulator does. *)
Theorem C137_as_on_the_reference : forall e p held c l f K w, env_ok e -> ported8 p held c l f -> keeps_held held K ->
  forall m f' w', ref_plays e K 0 m (f, w) (f', w') ->
  exists c', play e p K 0 m c w = Ok (c', w') /\ looks c' f' /\ on_track l c c'.
Proof.
  intros e p held c l f K w He H HK m f' w' X.
  destruct (C137_same_on_the_reference e p held c l f K w He H HK m) as (c' & f2 & w2 & Ep & X2 & L2 & T).
  pose proof (ref_plays_det _ _ _ _ _ _ X _ X2) as E. assert (w2 = w') as -> by congruence. assert (f2 = f') as -> by congruence.
  exists c'. auto.
Qed.

(** The same for [run], if the code sets no timer (why not otherwise: C52). *)
Theorem C137_run_as_the_reference : forall e p held c l f w, env_ok e -> ported8 p held c l f -> (held = true -> c8_interrupt c <> None) ->
  (forall n, In n l -> match op8 n with LdDelayTimerDestTx _ | LdSoundTimerDestTx _ => False | _ => True end) ->
  forall n, exists ops f' c' w', length ops = n /\ ref_run e ops (f, w) (f', w') /\ run e p c n w = Ok (Ready c', w') /\ looks c' f'.
Proof.
  intros e p held c l f w He (Hc & Hp & Lf) HK Ht n. pose proof (checked_sane p c l Hc) as S. destruct Hc as (Wf & Hc & _).
  destruct (ported_ref_run e p held l _ He Hc Hp n c f w S Lf) as (ops & f' & w' & Hl & X & F).
  { intros H. specialize (HK H). rewrite <- (Lf PKey). cbn [observe]. destruct (c8_interrupt c) as [[k]|]; [destruct k; cbn; discriminate|contradiction]. }
  destruct (C76_run_cpu e p c ops (f, w) (f', w') He Wf Lf X) as (c' & Er & L').
  { apply Forall_forall. intros op Ho. rewrite Forall_forall in F. destruct (F op Ho) as (a & Ha & <-). exact (Ht a Ha). }
  exists ops, f', c', w'. cbn [fst snd] in *. rewrite Hl in Er. auto.
Qed.

(** ** Concrete cases *)
(** The table program of C132, which reads a key, on both machines with a key
    held down: both keep I in the table when they store there. *)
Example C137_case : exists c, ported8 Debug true c table_notes (observe c) /\ forall m, exists c' f' w',
  play env0 Debug (fun _ => Some (InterruptKeyPress Key5)) 0 m c w0 = Ok (c', w') /\
  ref_plays env0 (fun _ => Some (InterruptKeyPress Key5)) 0 m (observe c, w0) (f', w') /\ looks c' f' /\
  (f' PPC = 0x208 -> 0x300 <= f' PI <= 0x30f).
Proof.
  destruct C132_case as (c & Hc & _). assert (P : ported8 Debug true c table_notes (observe c)) by (split; [exact Hc|split; [vm_compute; reflexivity|intros q; reflexivity]]).
  exists c. split; [exact P|]. intros m.
  destruct (C137_same_on_the_reference env0 Debug true c table_notes _ (fun _ => Some (InterruptKeyPress Key5)) w0 env0_ok P ltac:(intros _ n; discriminate) m)
    as (c' & f' & w' & Ep & X & L' & (n & En & Wn) & _).
  exists c', f', w'. split; [exact Ep|]. split; [exact X|]. split; [exact L'|]. rewrite <- !L'. intros E8. rewrite E8 in En.
  change (Some (mkNote8 0x208 (StoreRegistersToMemory V0) (ranged (0x300, 0x30f) any_byte (0, 15))) = Some n) in En.
  assert (En' : n = mkNote8 0x208 (StoreRegistersToMemory V0) (ranged (0x300, 0x30f) any_byte (0, 15))) by congruence. rewrite En' in Wn. exact (proj1 Wn).
Qed.

(** [run]: the program without the key. *)
Definition quiet_code : list opcode := [Rnd V0 15; LdSpriteLocation V0; LdAbsolute 0x300; AddIRegisterIndexed V0; LdBcd V0; ReadRegistersFromMemory V2; JpNonV0Indexed 0x200].
Definition quiet_notes : listing8 := annotated 0x200 quiet_code
  [ anything; ranged any_word (0, 15) any_byte; ranged any_word (0, 15) any_byte; ranged (0x300, 0x300) (0, 15) any_byte;
    ranged (0x300, 0x30f) (0, 15) any_byte; ranged (0x300, 0x30f) (0, 15) any_byte; anything ].
Example C137_run_case : exists c, ported8 Debug false c quiet_notes (observe c) /\ forall n, exists ops f' c' w',
  length ops = n /\ ref_run env0 ops (observe c, w0) (f', w') /\ run env0 Debug c n w0 = Ok (Ready c', w') /\ looks c' f'.
Proof.
  destruct (demo_checked Debug (Rnd V0 15) (tl quiet_code) anything
    [ ranged any_word (0, 15) any_byte; ranged any_word (0, 15) any_byte; ranged (0x300, 0x300) (0, 15) any_byte;
      ranged (0x300, 0x30f) (0, 15) any_byte; ranged (0x300, 0x30f) (0, 15) any_byte; anything ]) as (c & Hc & _).
  - repeat constructor; cbn; lia.
  - cbn. lia.
  - vm_compute. reflexivity.
  - reflexivity.
  - intros k. unfold anything, ranged. cbn [g_v]. destruct (k =? 0), (k =? 1); reflexivity.
  - reflexivity.
  - assert (P : ported8 Debug false c quiet_notes (observe c)) by (split; [exact Hc|split; [vm_compute; reflexivity|intros q; reflexivity]]).
    exists c. split; [exact P|]. apply (C137_run_as_the_reference env0 Debug false c quiet_notes (observe c) w0 env0_ok P); [discriminate|].
    intros n Hin. repeat (destruct Hin as [<-|Hin]; [exact I|]). destruct Hin.
Qed.

(** Code that passes the first check and is refused by the second: it calls,
    waits for a key that may not come, reads the timer, looks up a digit above
    15, jumps or reads beyond the memory. *)
Example C137_refused :
  (passes8 Release (code_at [Call 0x202; Ret]) (annotated 0x200 [Call 0x202; Ret] [anything; set_back anything 0x200]) = true /\
   portable_code true (annotated 0x200 [Call 0x202; Ret] [anything; set_back anything 0x200]) = false) /\
  (passes8 Debug (code_at table_code) table_notes = true /\ portable_code false table_notes = false /\ portable_code true table_notes = true) /\
  forallb (fun op => passes8 Release (code_at [op; JpNonV0Indexed 0x200]) (nothing_known [op; JpNonV0Indexed 0x200]) &&
                     negb (portable_code true (nothing_known [op; JpNonV0Indexed 0x200])))
    [LdDelayTimerSrcTx V0; LdSpriteLocation V0; ReadRegistersFromMemory V0] = true /\
  (passes8 Debug (code_at [LdImmediate V0 4; JpV0Indexed 0xffc]) (annotated 0x200 [LdImmediate V0 4; JpV0Indexed 0xffc] [anything; ranged any_word (4, 4) any_byte]) = false /\
   portable_code true [mkNote8 0x200 (JpV0Indexed 0xffc) (ranged any_word (4, 4) any_byte)] = false /\
   portable_code true [mkNote8 0x200 (JpV0Indexed 0xffc) (ranged any_word (3, 3) any_byte)] = true).
Proof. vm_compute. split; [split; reflexivity|]. split; [split; [reflexivity|split; reflexivity]|]. split; [reflexivity|]. split; [reflexivity|split; reflexivity]. Qed.

(** Rightly: with no key pressed, Fx0A goes on on the emulator and waits on the
    reference. *)
Example C137_difference : let c := demo [0xf0; 0x0a; 0x12; 0x00] [] 0 None in
  exists c' f', play env0 Debug (fun _ => None) 0 1 c w0 = Ok (c', w0) /\ observe c' PPC = 0x202 /\
    ref_plays env0 (fun _ => None) 0 1 (observe c, w0) (f', w0) /\ f' PPC = 0x200.
Proof.
  cbv zeta. eexists. eexists. split; [vm_compute; reflexivity|]. split; [vm_compute; reflexivity|]. split.
  - apply ref_plays_next with (op := LdK V0) (f1 := seen (observe (demo [0xf0; 0x0a; 0x12; 0x00] [] 0 None)) None) (w1 := w0); [|reflexivity|constructor].
    split; [exact I|]. split; vm_compute; [discriminate|reflexivity].
  - vm_compute. reflexivity.
Qed.

Print Assumptions C137_same_on_the_reference.
Print Assumptions C137_as_on_the_reference.
Print Assumptions C137_run_as_the_reference.
