(** C132: CHIP-8 code that passes a static check by ranges of values runs for
    ever without a panic, stays in the code and within the ranges, and changes
    only the memory the check allows. *)
From Verif Require Import Base Arith ModelMap ModelStep ModelDisplay ModelChip8 ModelOpsChip8 ModelRunChip8 SpecMap Link6502
  SpecChip8 SpecChip8Parts SpecChip8Run ProofChip8 ProofChip8Step ProofChip8Reach ProofChip8Run PropertiesChip8Run
  SpecRoutines8 ProofRoutines8 PropertiesRoutines8 SpecHost8 ProofHost8 SpecCheck8 ProofCheck8.
From Verif Require PropertiesReplace8.

Lemma checked_sane p c l : checked8 p c l -> sane l (fun a => observe c (PMem a)) c.
Proof. intros (W & Hp & X). split; [exact W|]. split; [exact X|]. intros a Ha. congruence. Qed.
Lemma sane_track l c c' : sane l (fun a => observe c (PMem a)) c' -> on_track l c c'.
Proof. intros (_ & X & Y). split; assumption. Qed.

(** Any number of instructions, while the host presses and releases keys. *)
Theorem C132_checked_code_runs : forall e p c l, env_ok e -> checked8 p c l ->
  forall K w m, exists c' w', play e p K 0 m c w = Ok (c', w') /\ well_formed c' /\ on_track l c c'.
Proof.
  intros e p c l He Hc K w m. pose proof (checked_sane p c l Hc) as S. destruct Hc as (_ & Hp & _).
  destruct (sane_plays e p l _ He Hp K m 0 c w S) as (c' & w' & E & S'). exists c', w'. split; [exact E|]. split; [apply S'|exact (sane_track l c c' S')].
Qed.

(** A call of [run] with any number of cycles returns, with a machine that is
    on track too. *)
Theorem C132_run_never_panics : forall e p c l, env_ok e -> checked8 p c l ->
  forall n w, exists c' w', run e p c n w = Ok (Ready c', w') /\ on_track l c c'.
Proof.
  intros e p c l He Hc n w. pose proof (checked_sane p c l Hc) as S. destruct Hc as (_ & Hp & _).
  assert (G : forall n c0 w0 c1 w1, instructions e p n c0 w0 c1 w1 -> sane l (fun a => observe c (PMem a)) c0 -> sane l (fun a => observe c (PMem a)) c1).
  { induction 1 as [c0 w0 t Ht|k c0 w0 c1 w1 t c2 w2 Es Ht X IH]; intros S0; [exact S0|].
    destruct (sane_step e p l _ He Hp c0 w0 S0) as (c3 & w3 & E3 & S3). apply IH. congruence. }
  destruct (run e p c n w) as [[s w']|] eqn:E.
  - destruct (C52_run_executes e p c n w s w' E) as (c' & it & -> & X & Sb). exists c', w'. split; [reflexivity|].
    destruct (G _ _ _ _ _ X S) as (_ & (n' & En & Wn) & Hm). split.
    + exists n'. rewrite (Sb PPC) by discriminate. split; [exact En|].
      apply within_alike with (observe it); [apply Sb; discriminate|intros k _; apply Sb; discriminate|rewrite !Sb by discriminate; reflexivity|exact Wn].
    + intros a Ha. rewrite (Sb (PMem a)) in Ha by discriminate. apply Hm. exact Ha.
  - exfalso. destruct (C52_run_panics e p c n w E) as (k & it & w' & _ & X & P).
    destruct (sane_step e p l _ He Hp it w' (G _ _ _ _ _ X S)) as (c3 & w3 & E3 & _). congruence.
Qed.

(** ** Concrete cases *)
(** Fill a table of 16 bytes with random numbers, showing each as three digits
    and reading a key in between, over and over. *)
Definition table_code : list opcode :=
  [ LdImmediate V1 0;            (* 200 *)
    LdAbsolute 0x300;            (* 202 *)
    AddIRegisterIndexed V1;      (* 204 *)
    Rnd V0 255;                  (* 206 *)
    StoreRegistersToMemory V0;   (* 208 *)
    LdK V2;                      (* 20a *)
    LdAbsolute 0x320;            (* 20c *)
    LdBcd V0;                    (* 20e *)
    AddImmediate V1 1;           (* 210 *)
    SeImmediate V1 16;           (* 212 *)
    JpNonV0Indexed 0x202;        (* 214 *)
    LdImmediate V0 4;            (* 216 *)
    JpV0Indexed 0x1fc ].         (* 218 *)
(** I, V0 and V1 in these ranges, the other registers anything. *)
Definition ranged (i v0 v1 : Z * Z) : ranges :=
  mkRanges i (fun k => if k =? 0 then v0 else if k =? 1 then v1 else any_byte) None.
Definition any_word : Z * Z := (0, 65535).
Definition table_known : list ranges :=
  [ ranged any_word any_byte any_byte; ranged any_word any_byte (0, 15); ranged (0x300, 0x300) any_byte (0, 15); ranged (0x300, 0x30f) any_byte (0, 15);
    ranged (0x300, 0x30f) any_byte (0, 15); ranged any_word any_byte (0, 15); ranged any_word any_byte (0, 15); ranged (0x320, 0x320) any_byte (0, 15);
    ranged any_word any_byte (0, 15); ranged any_word any_byte (1, 16); ranged any_word any_byte (1, 15); ranged any_word any_byte (16, 16);
    ranged any_word (4, 4) any_byte ].
Fixpoint annotated (a : Z) (ops : list opcode) (gs : list ranges) : listing8 :=
  match ops, gs with op :: ops', g :: gs' => mkNote8 a op g :: annotated (a + 2) ops' gs' | _, _ => [] end.
Definition table_notes : listing8 := annotated 0x200 table_code table_known.

(** Memory holding [ops] from 0x200 on. *)
Fixpoint word_at (ops : list opcode) (a : Z) : Z :=
  match ops with
  | [] => 0
  | op :: ops' => if a =? 0 then encode op / 256 else if a =? 1 then encode op mod 256 else word_at ops' (a - 2)
  end.
Definition code_at (ops : list opcode) (a : Z) : Z := word_at ops (a - 0x200).

Lemma passes8_same p f f' l : (forall n, In n l -> 256 * f' (at8 n) + f' (at8 n + 1) = 256 * f (at8 n) + f (at8 n + 1)) -> passes8 p f l = true -> passes8 p f' l = true.
Proof.
  intros H. unfold passes8. rewrite !forallb_forall. intros K n Hin. specialize (K n Hin). specialize (H n Hin).
  unfold instruction_ok8 in *. rewrite H. exact K.
Qed.
Lemma word_at_nth : forall ops k op, nth_error ops k = Some op -> 256 * word_at ops (2 * Z.of_nat k) + word_at ops (2 * Z.of_nat k + 1) = encode op.
Proof.
  induction ops as [|o ops IH]; intros [|k] op E; cbn [nth_error] in E; try discriminate.
  - assert (o = op) as -> by congruence. cbn [word_at]. change (2 * Z.of_nat 0 =? 0) with true. change (2 * Z.of_nat 0 + 1 =? 0) with false. change (2 * Z.of_nat 0 + 1 =? 1) with true.
    cbv iota. generalize (encode op). intros z. lia.
  - cbn [word_at]. rewrite <- (IH k op E).
    replace (2 * Z.of_nat (S k) =? 0) with false by lia. replace (2 * Z.of_nat (S k) =? 1) with false by lia. replace (2 * Z.of_nat (S k) + 1 =? 0) with false by lia.
    replace (2 * Z.of_nat (S k) + 1 =? 1) with false by lia. cbv iota.
    replace (2 * Z.of_nat (S k) - 2) with (2 * Z.of_nat k) by lia. replace (2 * Z.of_nat (S k) + 1 - 2) with (2 * Z.of_nat k + 1) by lia. reflexivity.
Qed.
Lemma annotated_nth : forall ops gs a n, In n (annotated a ops gs) -> exists k op, nth_error ops k = Some op /\ at8 n = a + 2 * Z.of_nat k.
Proof.
  induction ops as [|o ops IH]; intros [|g gs] a n H; cbn [annotated] in H; try contradiction H.
  destruct H as [<-|H]; [exists 0%nat, o; split; [reflexivity|cbn [at8]; lia]|].
  destruct (IH gs (a + 2) n H) as (k & op & E & Ea). exists (S k), op. split; [exact E|lia].
Qed.
Lemma demo_checked p op ops g0 gs : Forall operands_ok (op :: ops) -> 0x200 + 2 * Z.of_nat (length (op :: ops)) <= 4096 ->
  passes8 p (code_at (op :: ops)) (annotated 0x200 (op :: ops) (g0 :: gs)) = true ->
  g_i g0 = any_word -> (forall k, g_v g0 k = any_byte) -> g_back g0 = None -> exists c, checked8 p c (annotated 0x200 (op :: ops) (g0 :: gs)) /\ observe c PPC = 0x200.
Proof.
  intros F Hl Hp Gi Gv Gb. pose proof PropertiesReplace8.looping_loaded as X. revert X. generalize PropertiesReplace8.looping_demo. intros c (W & _ & Hpc & _).
  destruct (PropertiesReplace8.put_instructions (op :: ops) c 0x200 W ltac:(lia) Hl F) as (c2 & W2 & L2 & Ag).
  assert (Hpc2 : observe c2 PPC = 0x200) by (rewrite Ag; [exact Hpc|intros []]).
  exists c2. split; [|exact Hpc2]. split; [exact W2|]. split.
  - apply passes8_same with (code_at (op :: ops)); [|exact Hp]. intros n Hin. destruct (annotated_nth _ _ _ _ Hin) as (k & o & Ek & Ea).
    destruct L2 as (_ & _ & L2). rewrite Ea, (L2 k o Ek), <- (word_at_nth _ k o Ek). unfold code_at.
    replace (0x200 + 2 * Z.of_nat k - 0x200) with (2 * Z.of_nat k) by lia. replace (0x200 + 2 * Z.of_nat k + 1 - 0x200) with (2 * Z.of_nat k + 1) by lia. reflexivity.
  - eexists. rewrite Hpc2. split; [reflexivity|]. cbn [known]. split; [rewrite Gi; pose proof (wf_i c2 W2) as Hi; unfold u16 in Hi; unfold inside, any_word; cbn [fst snd observe]; lia|].
    split; [|rewrite Gb; exact I]. intros k Hk'. rewrite Gv. pose proof (observe_v_u8 c2 k W2 Hk') as Hb. unfold inside, any_byte, u8 in *. cbn [fst snd]. lia.
Qed.

(** The table program is accepted. *)
Lemma table_passes : passes8 Debug (code_at table_code) table_notes = true.
Proof. vm_compute. reflexivity. Qed.
(** It runs for ever, keeping V1 at 16 at most, I in the table whenever it
    stores there, and everything but the table and the digits as it was. *)
Example C132_case : exists c, checked8 Debug c table_notes /\ forall m, exists c' w', play env0 Debug (fun _ => Some (InterruptKeyPress Key5)) 0 m c w0 = Ok (c', w') /\
  (observe c' PPC = 0x208 -> 0x300 <= observe c' PI <= 0x30f) /\
  forall a, ~ (0x300 <= a <= 0x30f) -> ~ (0x320 <= a <= 0x322) -> observe c' (PMem a) = observe c (PMem a).
Proof.
  destruct (demo_checked Debug (LdImmediate V1 0) (tl table_code) (ranged any_word any_byte any_byte) (tl table_known)) as (c & Hc & _).
  - repeat constructor; cbn; lia.
  - cbn. lia.
  - exact table_passes.
  - reflexivity.
  - intros k. unfold ranged. cbn [g_v]. destruct (k =? 0), (k =? 1); reflexivity.
  - reflexivity.
  - exists c. split; [exact Hc|]. intros m. destruct (C132_checked_code_runs env0 Debug c _ env0_ok Hc (fun _ => Some (InterruptKeyPress Key5)) w0 m) as (c' & w' & E & _ & (n & En & Wn) & Hm).
    exists c', w'. split; [exact E|]. split.
    + intros E8. rewrite E8 in En. change (Some (mkNote8 0x208 (StoreRegistersToMemory V0) (ranged (0x300, 0x30f) any_byte (0, 15))) = Some n) in En.
      assert (En' : n = mkNote8 0x208 (StoreRegistersToMemory V0) (ranged (0x300, 0x30f) any_byte (0, 15))) by congruence. rewrite En' in Wn.
      destruct Wn as (Wi & _). exact Wi.
    + intros a N1 N2. destruct (Z.eq_dec (observe c' (PMem a)) (observe c (PMem a))) as [Eq|N]; [exact Eq|]. exfalso.
      destruct (Hm a N) as (n1 & r & Hin & Hr & Hi).
      repeat (destruct Hin as [<-|Hin]; [cbv in Hr; first [discriminate Hr|assert (r = (0x300, 0x30f)) as -> by congruence|assert (r = (0x320, 0x322)) as -> by congruence]; unfold inside in Hi; cbn [fst snd] in Hi; lia|]).
      exact Hin.
Qed.

Definition anything : ranges := ranged any_word any_byte any_byte.
(** Nothing is known, at any instruction. *)
Definition nothing_known (ops : list opcode) : listing8 := annotated 0x200 ops (map (fun _ => anything) ops).
(** A routine that is called and returns, as the code has it: the return goes to
    the call. *)
Example C132_call_case :
  passes8 Release (code_at [Call 0x202; Ret]) (annotated 0x200 [Call 0x202; Ret] [anything; set_back anything 0x200]) = true /\
  passes8 Release (code_at [Call 0x202; Ret]) (nothing_known [Call 0x202; Ret]) = false.
Proof. vm_compute. split; reflexivity. Qed.
(** Code that is refused: it may run off its end, jump into the middle of an
    instruction, store on itself, use the missing register VF, or look up a digit
    beyond what the arithmetic of a debug build allows. *)
Example C132_refused :
  passes8 Debug (code_at [Cls]) (nothing_known [Cls]) = false /\
  passes8 Debug (code_at [JpNonV0Indexed 0x201]) (nothing_known [JpNonV0Indexed 0x201]) = false /\
  passes8 Debug (code_at [LdBcd V0; JpNonV0Indexed 0x200]) (nothing_known [LdBcd V0; JpNonV0Indexed 0x200]) = false /\
  passes8 Debug (code_at [AddVxVy V0 V1; JpNonV0Indexed 0x200]) (nothing_known [AddVxVy V0 V1; JpNonV0Indexed 0x200]) = false /\
  passes8 Debug (code_at [LdSpriteLocation V0; JpNonV0Indexed 0x200]) (nothing_known [LdSpriteLocation V0; JpNonV0Indexed 0x200]) = false.
Proof. vm_compute. repeat split. Qed.
Example C132_not_refused :
  passes8 Debug (code_at [Cls; JpNonV0Indexed 0x200]) (nothing_known [Cls; JpNonV0Indexed 0x200]) = true /\
  passes8 Release (code_at [LdSpriteLocation V0; JpNonV0Indexed 0x200]) (nothing_known [LdSpriteLocation V0; JpNonV0Indexed 0x200]) = true.
Proof. vm_compute. split; reflexivity. Qed.

Print Assumptions C132_checked_code_runs.
Print Assumptions C132_run_never_panics.
