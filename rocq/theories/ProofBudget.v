(** Checked 6502 code is in time. *)
From Verif Require Import Base Arith ModelMap ModelRegs6502 ModelCpu6502 ModelIsa6502 ModelRun6502 SpecMap Link6502 ProofRun6502 ProofBus
  Spec6502 SpecInstr SpecFrame SpecProgram ProofProgram SpecCheck ProofCheck SpecBudget.

(** ** What each instruction does to X and the zero flag, and how long it takes *)
Definition timing (mn : mnemonic) (m : addressing_mode) (c : nat) (r : registers) (b1 b2 : Z) (e : effect) : Prop :=
  let r' := e_regs e in let z := ps_zero (rP r) in
  match mn with
  | Rts | Jsr => Z.of_nat (e_cycles e) = Z.of_nat c /\ rX r' = rX r /\ ps_zero (rP r') = z
  | _ => In (rX r') (next_x mn m b1 (rX r)) /\ In (ps_zero (rP r')) (next_z mn m b1 (rX r) z) /\
         exists g, In g (next_at mn m c (rPC r) b1 b2 z) /\ (rPC r' = fst g \/ rPC r' = fst g mod 65536) /\ Z.of_nat (e_cycles e) <= snd g
  end.
Definition timed (p : profile) (row : Z * (mnemonic * addressing_mode * nat)) : Prop :=
  let '(_, (mn, m, c)) := row in
  refused p mn m = false -> forall r rd b1 b2 x1 x2 e, regs_ok r -> byte_valued rd -> u8 b1 -> u8 b2 ->
  (2 <= length_of m -> x1 = b1) -> (3 <= length_of m -> x2 = b2) ->
  execute p mn m c r rd x1 x2 = Some e -> timing mn m c r b1 b2 e.

Lemma in_both z : In z both.
Proof. destruct z; cbn; auto. Qed.
Lemma byte_in rd a : byte_valued rd -> u16 a -> In (rd a) bytes256.
Proof. intros H Ha. apply in_bytes256. specialize (H a Ha). unfold u8 in H. lia. Qed.
Lemma u8_in v : u8 v -> In v bytes256.
Proof. intros H. apply in_bytes256. unfold u8 in H. lia. Qed.

Ltac timed_x :=
  first [ left; reflexivity
        | apply u8_in; assumption
        | apply byte_in; [assumption|unfold u8, u16, word in *; lia] ].
Ltac timed_z := first [left; reflexivity | apply in_both].
Ltac timed_at :=
  match goal with
  | |- exists g, In g [_] /\ _ => eexists; split; [left; reflexivity|]; cbn [fst snd longest]; split; [first [left; reflexivity | right; reflexivity]|]; unfold longest; cbn [operand_address read_penalty]; try (match goal with |- context [if ?c then _ else _] => destruct c end); lia
  end.
Ltac timed_row :=
  let R := fresh in
  intros R [A X Y S PC [fc fz fi fd fb fu fv fn]] rd b1 b2 x1 x2 e (HA & HX & HY & HS & HPC) Hrd Hb1 Hb2 E1 E2;
  cbn [rA rX rY rS rPC] in HA, HX, HY, HS, HPC;
  try (specialize (E1 ltac:(cbn [length_of]; lia)); subst x1);
  try (specialize (E2 ltac:(cbn [length_of]; lia)); subst x2);
  first
  [ discriminate R
  | let Q := fresh in intros Q; injection Q as <-; cbn [timing next_x next_z next_at e_regs e_cycles];
    first [ split; [timed_x|split; [timed_z|timed_at]] | split; [reflexivity|split; reflexivity] ] ].

Ltac timed_branch :=
  let R := fresh in
  intros R [A X Y S PC [fc fz fi fd fb fu fv fn]] rd b1 b2 x1 x2 e (HA & HX & HY & HS & HPC) Hrd Hb1 Hb2 E1 E2;
  specialize (E1 ltac:(cbn [length_of]; lia)); subst x1; clear E2; cbn [execute]; unfold branch_op; cbn [rP ps_carry ps_zero ps_negative ps_overflow];
  match goal with |- context [if negb ?c then _ else _] => destruct c | |- context [if ?c then _ else _] => destruct c end; cbn [negb];
  let Q := fresh in intros Q; injection Q as <-; cbn [timing next_x next_z next_at e_regs e_cycles rP ps_zero];
  (split; [left; reflexivity|]); (split; [left; reflexivity|]);
  first
  [ eexists; (split; [left; reflexivity|]); cbn [fst snd]; (split; [first [left; reflexivity | right; reflexivity]|]);
    cbn [rPC]; try (match goal with |- context [if ?c then _ else _] => destruct c end); lia
  | eexists; (split; [right; left; reflexivity|]); cbn [fst snd]; (split; [first [left; reflexivity | right; reflexivity]|]);
    cbn [rPC]; try (match goal with |- context [if ?c then _ else _] => destruct c end); lia ].

Ltac timed_indirect :=
  let R := fresh in
  intros R [A X Y S PC [fc fz fi fd fb fu fv fn]] rd b1 b2 x1 x2 e (HA & HX & HY & HS & HPC) Hrd Hb1 Hb2 E1 E2; specialize (E1 ltac:(cbn [length_of]; lia)); subst x1; clear E2;
  cbn [execute]; unfold read_op, operand_value, operand_address, unchecked;
  match goal with |- context [?a <? ?b] => destruct (a <? b) end;
  let Q := fresh in intros Q; injection Q as <-; cbn [timing next_x next_z next_at e_regs e_cycles];
  (split; [left; reflexivity|]); (split; [apply in_both|]); timed_at.

Lemma all_timed p : Forall (timed p) opcode_table.
Proof.
  unfold opcode_table, timed. destruct p.
  all: repeat (apply Forall_cons; [first [timed_row | timed_branch | timed_indirect]|]); apply Forall_nil.
Qed.

Lemma execute_timing p op mn m c r rd b1 b2 x1 x2 e : decode op = Some (mn, m, c) -> refused p mn m = false -> regs_ok r -> byte_valued rd -> u8 b1 -> u8 b2 ->
  (2 <= length_of m -> x1 = b1) -> (3 <= length_of m -> x2 = b2) -> execute p mn m c r rd x1 x2 = Some e -> timing mn m c r b1 b2 e.
Proof.
  intros Hd R Hr Hv H1 H2 E1 E2 X. apply decode_row in Hd.
  exact (proj1 (Forall_forall _ _) (all_timed p) _ Hd R r rd b1 b2 x1 x2 e Hr Hv H1 H2 E1 E2 X).
Qed.

(** ** The invariant *)
Section Invariant.
Variables (p : profile) (B : budget) (W : Z) (f0 : Z -> Z) (ramb : Z -> bool) (ram : Z -> Prop) (l : listing) (S0 : Z).
(** The bottom of the calls looked at: the main program, or a routine. *)
Variables (b : Z) (mb kb : bool) (Tb X0 : Z).
Hypothesis Hram : forall q, ramb q = true -> ram q.
Hypothesis Hpass : passes p f0 ramb l = true.
Hypothesis Htime : in_time B W f0 l = true.
Hypothesis Hbytes : byte_valued f0.
Hypothesis Hbase : 0 <= b /\ 0 <= Tb /\ (mb = false -> 2 <= b) /\ (mb = true -> b = 0 /\ Tb = 0).

Definition back_to (f : Z -> Z) (v : Z) : Z := (word (f (stack (S0 - v - 1))) (f (stack (S0 - v))) + 1) mod 65536.

(** The pending calls and the cycles that may pass after they have returned. *)
Inductive owes (f : Z -> Z) (x : Z) : Z -> bool -> bool -> Z -> Prop :=
| owes_base : (kb = true -> x = X0) -> owes f x b mb kb Tb
| owes_call v n k w T : noted l (back_to f v) = Some n ->
    (forall x' z, 0 <= x' < 256 -> (k = true -> x' = x) -> exists w', due B W (back_to f v) x' z = Some w' /\ w' <= w) -> 0 <= w ->
    (leaves_x B (back_to f v) = true -> k = true) ->
    owes f x (v - n_depth n) (n_main n) (leaves_x B (back_to f v)) T -> owes f x (v + 2) false k (w + T).

Lemma bounds a n : noted l a = Some n -> 0 <= a <= 0xfffd /\ 0 <= n_depth n /\ n_height n <= 255 /\ n_height n <= deepest l.
Proof. exact (note_bounds p f0 ramb ram l S0 Hram Hpass a n). Qed.

Lemma owes_low f x u main k T : owes f x u main k T -> 0 <= u /\ 0 <= T /\ (main = false -> 2 <= u) /\ (main = true -> u = 0 /\ T = 0) /\ b <= u /\ (mb = false -> main = false).
Proof.
  induction 1 as [Hb|v n k w T E Hx Hw Hk Ho IH]; [destruct Hbase as (H1 & H2 & H3 & H4); repeat (split; [assumption|]); split; [lia|auto]|]. apply bounds in E. repeat split; try lia; discriminate.
Qed.
Lemma owes_keeps f f' x u main k T : owes f x u main k T -> (forall i, 0 <= i < u -> f' (stack (S0 - i)) = f (stack (S0 - i))) -> owes f' x u main k T.
Proof.
  induction 1 as [Hb|v n k w T E Hx Hw Hk Ho IH]; intros K; [constructor; assumption|]. pose proof (bounds _ _ E) as Hn. pose proof (owes_low _ _ _ _ _ _ Ho) as Hl.
  assert (Eb : back_to f' v = back_to f v).
  { unfold back_to. pose proof (K (v + 1) ltac:(lia)) as K1. replace (S0 - (v + 1)) with (S0 - v - 1) in K1 by lia. rewrite K1, (K v ltac:(lia)). reflexivity. }
  econstructor; rewrite ?Eb; try eassumption. apply IH. intros i Hi. apply K. lia.
Qed.
(** What is owed does not depend on X if the current routine may change it. *)
Lemma owes_any f x u main T : owes f x u main false T -> forall x', owes f x' u main false T.
Proof.
  intros Ho x'. clear Hbase. remember false as k eqn:Ek. revert Ek. induction Ho as [Hb|v n k w T E Hx Hw Hk Ho IH]; intros Ek; [constructor; congruence|]. subst k.
  assert (Ef : leaves_x B (back_to f v) = false) by (destruct (leaves_x B (back_to f v)); [discriminate (Hk eq_refl)|reflexivity]).
  econstructor; try eassumption.
  - intros y z Hy _. apply Hx; [exact Hy|discriminate].
  - exact (IH Ef).
Qed.

Lemma noted_time a n : noted l a = Some n -> n_at n = a /\ time_ok B W f0 n = true.
Proof.
  intros E. unfold noted in E. apply find_some in E as [Hin Ha]. apply Z.eqb_eq in Ha. split; [exact Ha|].
  unfold in_time in Htime. rewrite forallb_forall in Htime. exact (Htime n Hin).
Qed.
Lemma time_range a n x z w : noted l a = Some n -> u8 x -> bound B a x z = Some w -> 0 <= w.
Proof.
  intros E Hx Eb. apply noted_time in E as [Ha Ht]. unfold time_ok in Ht. rewrite Ha in Ht. destruct (decode (f0 a)) as [[[mn m] c]|]; [|discriminate].
  apply andb_prop in Ht as [_ Ht]. rewrite forallb_forall in Ht. specialize (Ht x (u8_in x Hx)). rewrite forallb_forall in Ht. specialize (Ht z (in_both z)).
  rewrite Eb in Ht. apply andb_prop in Ht as [Ht _]. lia.
Qed.
Lemma due_range a n x z w : noted l a = Some n -> u8 x -> due B W a x z = Some w -> 0 <= w.
Proof.
  intros E Hx Ed. unfold due in Ed. destruct (bound B a x z) as [w1|] eqn:Eb; [|discriminate]. pose proof (time_range _ _ _ _ _ E Hx Eb).
  destruct (marked B a); [destruct (w1 <=? W)|]; congruence || lia || idtac. injection Ed as <-. lia.
Qed.
Lemma enough_due w cost a x z : enough B W w cost a x z = true -> exists w', due B W a x z = Some w' /\ cost + w' <= w.
Proof. unfold enough. destruct (due B W a x z) as [w'|]; [|discriminate]. intros H. exists w'. split; [reflexivity|lia]. Qed.

Definition state (r : registers) (f : Z -> Z) (n : note) (u T : Z) : Prop :=
  core f0 l S0 r f n u /\ tower f0 l S0 f 0 true (u - n_depth n) (n_main n) /\
  owes f (rX r) (u - n_depth n) (n_main n) (leaves_x B (rPC r)) T.

(** What the check says about an instruction. *)
Definition time_facts (n : note) (mn : mnemonic) (m : addressing_mode) (c : nat) (b1 b2 : Z) : Prop :=
  let a := n_at n in
  (leaves_x B a = true -> match mn with Dex | Inx | Ldx | Tax | Tsx => False | _ => True end) /\
  (mn = Jsr -> (leaves_x B a = true -> leaves_x B (word b1 b2) = true) /\ leaves_x B (a + 3) = leaves_x B a) /\
  (mn <> Jsr -> mn <> Rts -> forall z g, In g (next_at mn m c a b1 b2 z) -> leaves_x B (fst g) = leaves_x B a) /\
  forall x z w, u8 x -> bound B a x z = Some w ->
    (mn = Rts -> Z.of_nat c <= w) /\
    (mn = Jsr -> exists w1, due B W (word b1 b2) x z = Some w1 /\ forall x' z', 0 <= x' < 256 -> (leaves_x B (word b1 b2) = true -> x' = x) ->
       exists w', due B W (a + 3) x' z' = Some w' /\ w' <= w - (Z.of_nat c + w1)) /\
    (mn <> Jsr -> mn <> Rts -> forall g x' z', In g (next_at mn m c a b1 b2 z) -> In x' (next_x mn m b1 x) -> In z' (next_z mn m b1 x z) ->
       exists w', due B W (fst g) x' z' = Some w' /\ snd g + w' <= w).
Lemma noted_facts n mn m c : time_ok B W f0 n = true -> decode (f0 (n_at n)) = Some (mn, m, c) -> time_facts n mn m c (f0 (n_at n + 1)) (f0 (n_at n + 2)).
Proof.
  intros Ht Ed. unfold time_ok in Ht. rewrite Ed in Ht. generalize dependent (f0 (n_at n + 1)). intros b1. generalize (f0 (n_at n + 2)). intros b2 Ht.
  apply andb_prop in Ht as [Ht Htm]. apply andb_prop in Ht as [Ht Hlv]. apply andb_prop in Ht as [Ht Hsx]. unfold time_facts.
  split. { intros K. rewrite K in Hsx. cbn [implb] in Hsx. destruct mn; first [exact Logic.I | discriminate Hsx]. }
  split. { intros ->. apply andb_prop in Hlv as [H1 H2]. split; [intros K; rewrite K in H1; exact H1|apply Bool.eqb_prop; exact H2]. }
  split.
  { intros Nj Nr z g Hg. assert (K : forallb (fun z => forallb (fun g => Bool.eqb (leaves_x B (fst g)) (leaves_x B (n_at n))) (next_at mn m c (n_at n) b1 b2 z)) both = true).
    { destruct mn; congruence || exact Hlv. }
    rewrite forallb_forall in K. specialize (K z (in_both z)). rewrite forallb_forall in K. apply Bool.eqb_prop. exact (K g Hg). }
  intros x z w Hx Eb. rewrite forallb_forall in Htm. specialize (Htm x (u8_in x Hx)). rewrite forallb_forall in Htm. specialize (Htm z (in_both z)). rewrite Eb in Htm.
  apply andb_prop in Htm as [_ Htm]. split; [intros ->; apply Z.leb_le; exact Htm|]. split.
  - intros ->. destruct (due B W (word b1 b2) x z) as [w1|]; [|discriminate Htm]. exists w1. split; [reflexivity|]. intros x' z' Hx' Hk.
    rewrite forallb_forall in Htm. assert (In x' (if leaves_x B (word b1 b2) then [x] else bytes256)) as Hin'.
    { destruct (leaves_x B (word b1 b2)); [left; symmetry; exact (Hk eq_refl)|apply in_bytes256; exact Hx']. }
    specialize (Htm x' Hin'). rewrite forallb_forall in Htm. destruct (enough_due _ _ _ _ _ (Htm z' (in_both z'))) as (w' & E1 & E2). exists w'. split; [exact E1|]. clear - E2. lia.
  - intros Nj Nr g x' z' Hg Hx' Hz'. apply enough_due.
    assert (K : forallb (fun g => forallb (fun x' => forallb (fun z' => enough B W w (snd g) (fst g) x' z') (next_z mn m b1 x z)) (next_x mn m b1 x)) (next_at mn m c (n_at n) b1 b2 z) = true).
    { destruct mn; congruence || exact Htm. }
    rewrite forallb_forall in K. specialize (K g Hg). rewrite forallb_forall in K. specialize (K _ Hx'). rewrite forallb_forall in K. exact (K _ Hz').
Qed.

(** Where an instruction other than JSR and RTS leads to is noted. *)
Lemma next_noted mn m c n b1 b2 z g : refused p mn m = false -> mn <> Jsr -> mn <> Rts -> (match mn with Pha | Php | Pla | Plp => length_of m = 1 | _ => True end) ->
  successors_ok l mn m b1 b2 n = true ->
  In g (next_at mn m c (n_at n) b1 b2 z) ->
  exists n' d, noted l (fst g) = Some n' /\ n_depth n' = n_depth n + d /\ n_main n' = n_main n /\
    d = match mn with Pha | Php => 1 | Pla | Plp => -1 | _ => 0 end.
Proof.
  intros Hrf Nj Nr Hm Hs Hg.
  assert (G : forall a d h, goes_to l (n_main n) a (n_depth n + d) h = true -> exists n' d', noted l a = Some n' /\ n_depth n' = n_depth n + d' /\ n_main n' = n_main n /\ d' = d).
  { intros a d h G. destruct (goes_note p f0 ramb ram l Hram _ _ _ _ G) as (n' & E & Ed & _ & Em). exists n', d. auto. }
  assert (G0 : forall a h, goes_to l (n_main n) a (n_depth n) h = true -> exists n' d', noted l a = Some n' /\ n_depth n' = n_depth n + d' /\ n_main n' = n_main n /\ d' = 0).
  { intros a h K. apply (G a 0 h). rewrite Z.add_0_r. exact K. }
  destruct mn; try congruence; cbn [next_at successors_ok] in Hs, Hg;
  try (destruct Hg as [<- | []]; cbn [fst]; exact (G0 _ _ Hs));
  try (apply andb_prop in Hs as [H1 H2]; try destruct z; repeat (destruct Hg as [<- | Hg]; [cbn [fst]; first [exact (G0 _ _ H1) | exact (G0 _ _ H2)]|]); contradiction Hg);
  try (destruct Hg as [<- | []]; cbn [fst]; rewrite Hm; exact (G _ 1 _ Hs));
  try (apply andb_prop in Hs as [_ Hs]; destruct Hg as [<- | []]; cbn [fst]; rewrite Hm; exact (G _ (-1) _ Hs)).
Qed.

Lemma state_step r f n u T w : state r f n u T -> bound B (rPC r) (rX r) (ps_zero (rP r)) = Some w ->
  exists e, step p r f = Some e /\ Forall (fun x => ram (fst x)) (e_stores e) /\
    (forall i, 0 <= i < b -> stored f (e_stores e) (stack (S0 - i)) = f (stack (S0 - i))) /\
    ((exists n' u' T' w', state (e_regs e) (stored f (e_stores e)) n' u' T' /\
       due B W (rPC (e_regs e)) (rX (e_regs e)) (ps_zero (rP (e_regs e))) = Some w' /\ Z.of_nat (e_cycles e) + w' + T' <= w + T) \/
     (mb = false /\ T = Tb /\ Z.of_nat (e_cycles e) <= w /\ stored f (e_stores e) = f /\
      rS (e_regs e) = (S0 - (b - 2)) mod 256 /\ rPC (e_regs e) = back_to f (b - 2) /\ (kb = true -> rX (e_regs e) = X0))).
Proof.
  intros (C & Tw & O) Eb. pose proof C as (Hr & Hf & En & ES & Hu & Hc). pose proof (bounds _ _ En) as Bn. pose proof (owes_low _ _ _ _ _ _ O) as (L1 & L2 & L3 & L4 & L5 & L6).
  destruct (core_step p f0 ramb ram l S0 Hram Hpass r f n u C) as (mn & m & c & e & Ed & Est & Sh & Hs & Ha & Hin & Hr' & Hf' & E0).
  destruct (step_onward p f0 ramb ram l S0 Hram Hpass r f n u 0 true C Tw ltac:(lia) ltac:(discriminate)) as (e1 & Es1 & Hw & _ & [(n' & u' & C' & Tw')|(K & _)]); [|discriminate K].
  rewrite Est in Es1. injection Es1 as <-.
  destruct (step_onward p f0 ramb ram l S0 Hram Hpass r f n u (u - n_depth n) (n_main n) C ltac:(constructor) ltac:(lia) ltac:(lia)) as (e1 & Es1 & _ & Keep & _).
  rewrite Est in Es1. injection Es1 as <-.
  assert (Keepb : forall i, 0 <= i < b -> stored f (e_stores e) (stack (S0 - i)) = f (stack (S0 - i))) by (intros i Hi; apply Keep; clear - Hi L5; lia).
  pose proof (noted_facts n mn m c (proj2 (noted_time _ _ En)) Ed) as (Fx & Fj & Fl & Fw).
  assert (Hrf : refused p mn m = false).
  { pose proof (noted_ok p f0 ramb l Hpass _ _ En) as (_ & _ & Hok). unfold instruction_ok in Hok. rewrite Ed in Hok. apply andb_prop in Hok as [_ Hok].
    apply andb_prop in Hok as [Hok _]. apply andb_prop in Hok as [Hrf _]. apply Bool.negb_true_iff. exact Hrf. }
  set (b1 := f0 (n_at n + 1)) in *. set (b2 := f0 (n_at n + 2)) in *. set (a := n_at n) in *.
  assert (U1 : u8 b1) by (apply Hbytes; unfold u16; lia). assert (U2 : u8 b2) by (apply Hbytes; unfold u16; lia).
  assert (Tm : timing mn m c r b1 b2 e).
  { pose proof (own_bytes p f0 ramb ram l S0 Hram Hpass f n mn m c) as Own. pose proof (length_range m) as Hlen.
    apply (execute_timing p (f0 a) mn m c r f b1 b2 (f (rPC r + 1)) (f (rPC r + 2)) e Ed Hrf Hr Hf U1 U2).
    - intros H2. rewrite <- Ha. assert (K : 0 <= 1 < length_of m) by (clear - H2; lia). exact (Own 1 Hc Hin Ed K).
    - intros H3. rewrite <- Ha. assert (K : 0 <= 2 < length_of m) by (clear - H3; lia). exact (Own 2 Hc Hin Ed K).
    - rewrite <- Est. symmetry. apply (step_at p r f (f0 a) mn m c (proj1 Bn)); [|exact Ed]. rewrite E0, Ha. reflexivity. }
  assert (HX : u8 (rX r)) by apply Hr. assert (HX' : u8 (rX (e_regs e))) by apply Hr'.
  specialize (Fw (rX r) (ps_zero (rP r)) w HX ltac:(fold a; rewrite Ha; exact Eb)). destruct Fw as (Fw1 & Fw2 & Fw3). fold a in Fx, Fj, Fl, Fw2, Fw3.
  pose proof C' as (_ & _ & En' & ES' & Hu' & _). pose proof (bounds _ _ En') as Bn'.
  assert (Gen : mn <> Jsr -> mn <> Rts -> exists n' u' T' w',
    state (e_regs e) (stored f (e_stores e)) n' u' T' /\ due B W (rPC (e_regs e)) (rX (e_regs e)) (ps_zero (rP (e_regs e))) = Some w' /\ Z.of_nat (e_cycles e) + w' + T' <= w + T).
  { intros Nj Nr.
    assert (Tm' : In (rX (e_regs e)) (next_x mn m b1 (rX r)) /\ In (ps_zero (rP (e_regs e))) (next_z mn m b1 (rX r) (ps_zero (rP r))) /\
         exists g, In g (next_at mn m c (rPC r) b1 b2 (ps_zero (rP r))) /\ (rPC (e_regs e) = fst g \/ rPC (e_regs e) = fst g mod 65536) /\ Z.of_nat (e_cycles e) <= snd g).
    { destruct mn; congruence || exact Tm. }
    destruct Tm' as (Tx & Tz & g & Hg & Epc & Hcy). rewrite <- Ha in Hg.
    assert (Hl1 : match mn with Pha | Php | Pla | Plp => length_of m = 1 | _ => True end).
    { assert (F : forallb (fun row => match snd row with (mn, m, _) => match mn with Pha | Php | Pla | Plp => length_of m =? 1 | _ => true end end) opcode_table = true) by (vm_compute; reflexivity).
      rewrite forallb_forall in F. specialize (F _ (decode_row _ _ Ed)). cbn [snd] in F. destruct mn; try exact Logic.I; lia. }
    destruct (next_noted mn m c n b1 b2 _ g Hrf Nj Nr Hl1 Hs Hg) as (n2 & d & En2 & Ed2 & Em2 & Edd). pose proof (bounds _ _ En2) as B2.
    assert (Epc' : rPC (e_regs e) = fst g) by (destruct Epc as [Epc|Epc]; [exact Epc|rewrite Epc; apply Z.mod_small; lia]). clear Epc.
    rewrite Epc' in En'. assert (n2 = n') by congruence. subst n2.
    assert (ESd : rS (e_regs e) = (rS r - d) mod 256).
    { assert (Z0 : rS r = (rS r - 0) mod 256) by (destruct Hr as (_ & _ & _ & K & _); unfold u8 in K; lia).
      rewrite Edd. destruct mn; try congruence; cbn [shape] in Sh; destruct Sh as (_ & Sh & _); rewrite Sh; first [exact Z0 | reflexivity]. }
    assert (Eu : u' - n_depth n' = u - n_depth n).
    { rewrite ES, ES' in ESd. assert (-1 <= d <= 1) by (destruct mn; lia). lia. }
    pose proof (Fl Nj Nr _ g Hg) as Elv.
    destruct (Fw3 Nj Nr g _ _ Hg Tx Tz) as (w' & Edue & Hle). rewrite <- Epc' in Edue. exists n', u', T, w'. split; [|split; [exact Edue|clear - Hle Hcy; lia]].
    split; [exact C'|]. split; [exact Tw'|]. rewrite Epc', Elv, Em2, Eu.
    apply owes_keeps with f; [|exact Keep]. rewrite <- Ha in O. fold a in O. destruct (leaves_x B a) eqn:Elx.
    - (* X is left alone *)
      specialize (Fx eq_refl). assert (Ex : rX (e_regs e) = rX r).
      { destruct mn; try contradiction Fx; cbn [next_x] in Tx; destruct Tx as [<- | []]; reflexivity. }
      rewrite Ex. exact O.
    - exact (owes_any _ _ _ _ _ O _). }
  exists e. destruct mn; try (destruct (Gen ltac:(discriminate) ltac:(discriminate)) as (n2 & u2 & T2 & w2 & G); split; [exact Est|]; split; [exact Hw|]; split; [exact Keepb|]; left; exists n2, u2, T2, w2; exact G); clear Gen.
  - (* JSR *)
    destruct (call_step p f0 ramb ram l S0 Hram Hpass r f n u m _ _ c e C Ed Ha Sh Hs Hr' Hf' ltac:(lia)) as (A1 & A2 & (n2 & C2 & D2 & M2) & A4 & (n1 & N1 & D1 & H1 & M1)).
    cbn [timing] in Tm. destruct Tm as (Tc & Tx & Tz). cbn [shape] in Sh. destruct Sh as (_ & Es2 & Ep2).
    assert (n2 = n'). { destruct C2 as (_ & _ & K & _). congruence. } subst n2.
    assert (u' = u + 2). { destruct C2 as (_ & _ & _ & K & K2 & _). rewrite ES' in K. lia. } subst u'.
    destruct (Fw2 eq_refl) as (w1 & Edue & Ret). destruct (Fj eq_refl) as [Hlv1 Hlv2]. set (k := leaves_x B (word b1 b2)) in *. rewrite Ha in Ret.
    split; [exact Est|]. split; [exact Hw|]. split; [exact Keepb|]. left. exists n', (u + 2), (w - (Z.of_nat c + w1) + T), w1. split.
    + split; [exact C'|]. split; [exact Tw'|]. rewrite D2, M2, Z.sub_0_r, Tx, Ep2. fold k.
      apply owes_call with n1.
      * unfold back_to. rewrite A4. exact N1.
      * unfold back_to. rewrite A4. exact Ret.
      * destruct (Ret (rX r) true ltac:(unfold u8 in HX; lia) ltac:(auto)) as (w' & E1 & E2). pose proof (due_range _ _ _ _ _ N1 HX E1). lia.
      * unfold back_to. rewrite A4. intros K. rewrite <- Ha in K. fold a in K. rewrite Hlv2 in K. exact (Hlv1 K).
      * unfold back_to. rewrite A4, D1, M1. rewrite <- Ha. fold a. rewrite Hlv2. rewrite <- Ha in O. fold a in O. apply owes_keeps with f; [exact O|]. intros i Hi. apply A2. lia.
    + rewrite Ep2, Tx, Tz. split; [exact Edue|lia].
  - (* RTS *)
    cbn [timing] in Tm. destruct Tm as (Tc & Tx & Tz). cbn [shape] in Sh. destruct Sh as (S1 & S2 & S3). cbn [successors_ok] in Hs. apply andb_prop in Hs as [Hm Hd]. apply Bool.negb_true_iff in Hm.
    assert (D0 : n_depth n = 0) by lia. rewrite D0, Hm, Z.sub_0_r in O. rewrite S1 in *. cbn [stored fold_left] in *.
    rewrite (stack_S p f0 ramb ram l S0 Hram r u 1 ES), (stack_S p f0 ramb ram l S0 Hram r u 2 ES) in S3.
    specialize (Fw1 eq_refl). split; [exact Est|]. split; [exact Hw|]. split; [exact Keepb|].
    inversion O as [Hb E1 E2 E3 E4|v n1 k w1 T1 N1 Hx Hw1 Hk Ho E1 E2 E3 E4].
    { right. split; [reflexivity|]. split; [reflexivity|]. split; [lia|]. split; [reflexivity|]. split; [rewrite S2, ES; lia|]. split.
      - rewrite S3. unfold back_to. replace (S0 - (u - 1)) with (S0 - (b - 2) - 1) by lia. replace (S0 - (u - 2)) with (S0 - (b - 2)) by lia. reflexivity.
      - intros K. rewrite Tx. exact (Hb K). }
    assert (Eu : u - 2 = v) by lia. assert (Epc : rPC (e_regs e) = back_to f v).
    { rewrite S3. unfold back_to. replace (S0 - (u - 1)) with (S0 - v - 1) by lia. rewrite Eu. reflexivity. }
    rewrite Epc in *. assert (n1 = n') by congruence. subst n1.
    assert (u' = v). { rewrite S2, ES in ES'. pose proof (owes_low _ _ _ _ _ _ Ho). lia. } subst u'.
    destruct (Hx (rX r) (ps_zero (rP r)) ltac:(unfold u8 in HX; lia) ltac:(auto)) as (w' & Edue & Hle).
    left. exists n', v, T1, w'. split.
    + split; [exact C'|]. split; [exact Tw'|]. rewrite Tx, Epc. exact Ho.
    + rewrite Tx, Tz. split; [exact Edue|lia].
Qed.

(** What the check says about a call that is reached. *)
Lemma call_facts r f n u T w : state r f n u T -> bound B (rPC r) (rX r) (ps_zero (rP r)) = Some w -> f0 (rPC r) = 0x20 ->
  let a := word (f0 (rPC r + 1)) (f0 (rPC r + 2)) in
  exists e n' w', step p r f = Some e /\ Forall (fun x => ram (fst x)) (e_stores e) /\ e_cycles e = 6%nat /\
    rPC (e_regs e) = a /\ rX (e_regs e) = rX r /\ ps_zero (rP (e_regs e)) = ps_zero (rP r) /\ rS r = (S0 - u) mod 256 /\ 0 <= u /\
    core f0 l S0 (e_regs e) (stored f (e_stores e)) n' (u + 2) /\ tower f0 l S0 (stored f (e_stores e)) 0 true (u + 2) false /\
    n_depth n' = 0 /\ n_main n' = false /\ back_to (stored f (e_stores e)) u = rPC r + 3 /\
    due B W a (rX r) (ps_zero (rP r)) = Some w'.
Proof.
  intros (C & Tw & O) Eb E20 a. pose proof C as (Hr & Hf & En & ES & Hu & Hc). pose proof (bounds _ _ En) as Bn.
  destruct (core_step p f0 ramb ram l S0 Hram Hpass r f n u C) as (mn & m & c & e & Ed & Est & Sh & Hs & Ha & Hin & Hr' & Hf' & E0).
  pose proof (noted_facts n mn m c (proj2 (noted_time _ _ En)) Ed) as (Fx & Fj & Fl & Fw). pose proof Ed as Ed0. rewrite Ha, E20 in Ed0. vm_compute in Ed0. injection Ed0 as <- <- <-.
  assert (HX : u8 (rX r)) by apply Hr.
  destruct (Fw (rX r) (ps_zero (rP r)) w HX ltac:(rewrite Ha; exact Eb)) as (_ & F2 & _). destruct (F2 eq_refl) as (w1 & Edue & _).
  destruct (call_step p f0 ramb ram l S0 Hram Hpass r f n u Absolute _ _ 6%nat e C Ed Ha Sh Hs Hr' Hf' ltac:(lia)) as (A1 & A2 & (n2 & C2 & D2 & M2) & A4 & (n1 & N1 & D1 & H1 & M1)).
  destruct (step_onward p f0 ramb ram l S0 Hram Hpass r f n u 0 true C Tw ltac:(lia) ltac:(discriminate)) as (e1 & Es1 & Hw & _ & [(n' & u' & C' & Tw')|(K & _)]); [|discriminate K].
  rewrite Est in Es1. injection Es1 as <-.
  assert (n2 = n') by (destruct C2 as (_ & _ & K & _), C' as (_ & _ & K' & _); congruence). subst n2.
  assert (u' = u + 2). { pose proof (bounds _ _ ltac:(destruct C' as (_ & _ & K' & _); exact K')) as B'. destruct C2 as (_ & _ & _ & K & K2 & _), C' as (_ & _ & _ & K' & K2' & _). rewrite K in K'. clear - B' K2 K' K2' Bn Hu. lia. } subst u'.
  rewrite D2, M2, Z.sub_0_r in Tw'.
  assert (Tm : timing Jsr Absolute 6 r (f0 (n_at n + 1)) (f0 (n_at n + 2)) e).
  { pose proof (own_bytes p f0 ramb ram l S0 Hram Hpass f n Jsr Absolute 6) as Own.
    apply (execute_timing p (f0 (n_at n)) Jsr Absolute 6 r f _ _ (f (rPC r + 1)) (f (rPC r + 2)) e Ed eq_refl Hr Hf).
    - apply Hbytes; unfold u16; rewrite Ha; clear - Bn; lia.
    - apply Hbytes; unfold u16; rewrite Ha; clear - Bn; lia.
    - intros _. rewrite <- Ha. apply (Own 1 Hc Hin Ed). cbn. lia.
    - intros _. rewrite <- Ha. apply (Own 2 Hc Hin Ed). cbn. lia.
    - rewrite <- Est. symmetry. apply (step_at p r f (f0 (n_at n)) Jsr Absolute 6%nat (proj1 Bn)); [|exact Ed]. rewrite E0, Ha. reflexivity. }
  destruct Tm as (Tc & Tx & Tz). cbn [shape] in Sh. destruct Sh as (_ & Es2 & Ep2). rewrite Ha in Ep2, Edue.
  exists e, n', w1. split; [exact Est|]. split; [exact Hw|]. split; [clear - Tc; lia|]. split; [exact Ep2|]. split; [exact Tx|]. split; [exact Tz|]. split; [exact ES|]. split; [clear - Hu Bn; lia|].
  split; [exact C2|]. split; [exact Tw'|]. split; [exact D2|]. split; [exact M2|]. split; [exact A4|exact Edue].
Qed.
End Invariant.
