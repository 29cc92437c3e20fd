(** C131: 6502 code that passes a static check of its jumps, calls, pushes,
    pulls and stores runs for ever without a panic, stays in the code, keeps
    its stack within the noted bounds, and every call returns to the
    instruction after it with the caller's stack intact. *)
From Verif Require Import Base Arith ModelMap ModelRegs6502 ModelCpu6502 ModelStep ModelIsa6502 ModelRun6502 SpecMap Link6502 ProofRun6502 ProofBus
  SpecInstr ProofInstr Demo6502 Properties6502Mem Spec6502 SpecProgram ProofProgram PropertiesProgram SpecCheck ProofCheck.

Section Checked.
Context {D : Type} `{Device D}.
Variables (p : profile) (I : address_map D -> Prop) (ram : Z -> Prop) (cpu : mos6502 D) (r : registers) (f : Z -> Z) (ramb : Z -> bool) (l : listing).
Hypothesis Hc : checked p I ram cpu r f ramb l.

Lemma checked_start : exists n, core f l (rS r) r f n 0 /\ tower f l (rS r) f 0 true (0 - n_depth n) (n_main n).
Proof.
  destruct Hc as (Hb & M & Hr & Hp & n & En & Em & Ed & Hh). exists n. pose proof M as (_ & Ho & _). split.
  - split; [exact Ho|]. split; [exact (machine_bytes p I ram cpu r f Hb M)|]. split; [exact En|].
    destruct Ho as (_ & _ & _ & HS & _). split; [unfold u8 in HS; lia|]. split; [lia|]. intros q Hq. congruence.
  - rewrite Ed, Em. constructor.
Qed.

Lemma checked_exec k : exists t cpu' r' f' n u, steps p k t cpu cpu' /\ run p cpu t = Ok (Ready cpu') /\ machine_with p I cpu' r' f' /\
  core f l (rS r) r' f' n u /\ tower f l (rS r) f' 0 true (u - n_depth n) (n_main n).
Proof.
  destruct checked_start as (n0 & C0 & T0). destruct Hc as (Hb & M & Hr & Hp & _).
  destruct (run_checked p f ramb ram l (rS r) Hr Hp k r f n0 0 C0 T0) as (t & r' & f' & n & u & X & C & T).
  destruct (exec_runs p I ram k t r f r' f' cpu Hb X M) as (cpu' & [S R] & M'). exists t, cpu', r', f', n, u. auto.
Qed.
End Checked.

(** Any number of instructions can be executed.  Afterwards the machine is at
    an instruction of the listing, [u] bytes of the stack are in use, which is
    within the noted bound and in the main program exactly what is noted; and
    only stack bytes and named places have changed. *)
Theorem C131_checked_code_runs : forall D (HD : Device D) p I ram (cpu : mos6502 D) r f ramb l,
  checked p I ram cpu r f ramb l ->
  forall k, exists t cpu' r' f', runs p k t cpu cpu' /\ machine_with p I cpu' r' f' /\
    (exists n u, noted l (rPC r') = Some n /\ rS r' = (rS r - u) mod 256 /\ n_depth n <= u <= n_height n /\ u <= 255 /\
       (n_main n = true -> u = n_depth n)) /\
    (forall q, f' q <> f q -> (exists i, 0 <= i < deepest l /\ q = stack (rS r - i)) \/ stored_to f l q).
Proof.
  intros D HD p I ram cpu r f ramb l Hc k. destruct (checked_exec p I ram cpu r f ramb l Hc k) as (t & cpu' & r' & f' & n & u & S & R & M & C & T).
  exists t, cpu', r', f'. split; [split; assumption|]. split; [exact M|]. destruct C as (_ & _ & En & ES & Hu & Hch). split; [|exact Hch].
  destruct Hc as (_ & _ & Hr & Hp & _). pose proof (note_bounds p f ramb ram l (rS r) Hr Hp _ _ En) as B.
  exists n, u. split; [exact En|]. split; [exact ES|]. split; [exact Hu|]. split; [lia|]. intros Em. rewrite Em in T. inversion T. lia.
Qed.

(** A call of [run] with any number of cycles returns. *)
Theorem C131_checked_code_never_panics : forall D (HD : Device D) p I ram (cpu : mos6502 D) r f ramb l,
  checked p I ram cpu r f ramb l -> forall n, exists cpu', run p cpu n = Ok (Ready cpu').
Proof.
  intros D HD p I ram cpu r f ramb l Hc n. destruct (run p cpu n) as [[rm s|s]|] eqn:E.
  - exfalso. exact (run_never_notready p cpu n rm s E).
  - exists s. reflexivity.
  - exfalso. apply run_panic_iff in E as (k & t & cpu1 & S1 & _ & P).
    destruct (checked_exec p I ram cpu r f ramb l Hc (Datatypes.S k)) as (t' & cpu' & _ & _ & _ & _ & S2 & _).
    assert (G : forall k t (c c1 : mos6502 D), steps p k t c c1 -> observed_step p c1 = Panic -> forall t2 c2, ~ steps p (Datatypes.S k) t2 c c2).
    { clear. induction 1 as [c|k t n c c1 c2 Es Hst IH]; intros P t3 c3 K; inversion K; subst.
      - congruence.
      - match goal with A : observed_step p c = Ok (_, ?c4), B : steps p (Datatypes.S k) _ ?c4 _ |- _ => rewrite Es in A; injection A as <- <-; exact (IH P _ _ B) end. }
    exact (G _ _ _ _ S1 P _ _ S2).
Qed.

(** A call that is executed at any time: when the stack pointer is for the
    first time what it was before the call, the machine is at the instruction
    after the call, and the stack bytes in use before the call are as they
    were. *)
Theorem C131_calls_return : forall D (HD : Device D) p I ram (cpu : mos6502 D) r f ramb l,
  checked p I ram cpu r f ramb l ->
  forall k t cpu1, steps p k t cpu cpu1 -> peek p (amap cpu1) (rPC (regs_of cpu1)) = 0x20 ->
  forall j t2 cpu2, (0 < j)%nat -> steps p j t2 cpu1 cpu2 -> rS (regs_of cpu2) = rS (regs_of cpu1) ->
  (forall i t3 cpu3, (0 < i < j)%nat -> steps p i t3 cpu1 cpu3 -> rS (regs_of cpu3) <> rS (regs_of cpu1)) ->
  rPC (regs_of cpu2) = rPC (regs_of cpu1) + 3 /\
  forall i, 0 <= i < (rS r - rS (regs_of cpu1)) mod 256 ->
    peek p (amap cpu2) (stack (rS r - i)) = peek p (amap cpu1) (stack (rS r - i)).
Proof.
  intros D HD p I ram cpu r f ramb l Hc k t cpu1 S1 Hop j t2 cpu2 Hj S2 Eq Hfirst.
  destruct (checked_exec p I ram cpu r f ramb l Hc k) as (t' & cpu1' & r1 & f1 & n1 & u1 & S1' & _ & M1 & C1 & _).
  destruct (steps_det p _ _ _ _ S1 _ _ S1') as [_ <-]. clear S1' t'.
  destruct Hc as (Hb & _ & Hr & Hp & _). pose proof M1 as (Hi1 & Ho1 & Er1 & Hf1). rewrite Er1 in *.
  pose proof C1 as (_ & _ & En1 & ES1 & Hu1 & _). pose proof (note_bounds p f ramb ram l (rS r) Hr Hp _ _ En1) as B1.
  destruct (core_step p f ramb ram l (rS r) Hr Hp r1 f1 n1 u1 C1) as (mn & m & c & e & Ed & Est & Sh & Hs & Ha & Hin & Hr' & Hf' & E0).
  rewrite Hf1, E0, <- Ha in Hop by (unfold u16; lia). rewrite Hop in Ed. vm_compute in Ed. injection Ed as <- <- <-.
  destruct (call_step p f ramb ram l (rS r) Hr Hp r1 f1 n1 u1 Absolute _ _ 6%nat e C1 ltac:(rewrite Hop; reflexivity) Ha Sh Hs Hr' Hf' ltac:(lia))
    as (A1 & A2 & (n' & C' & D' & M') & A4 & _).
  destruct (exec_sound p I ram Hb 1 (e_cycles e + 0) r1 f1 (e_regs e) (stored f1 (e_stores e))
    (exec_step p ram 0 0 r1 f1 e _ _ Est A1 (exec_done _ _ _ _)) cpu1 M1) as (cpuc & Sc & Mc).
  destruct j as [|j]; [lia|].
  destruct (run_inside p f ramb ram l (rS r) Hr Hp u1 j ltac:(lia) (e_regs e) (stored f1 (e_stores e)) n' (u1 + 2) C')
    as [(t3 & r3 & f3 & n3 & u3 & X & C3 & L3)|(i & t3 & r3 & f3 & Hi & X & F1 & F2 & F3)].
  { rewrite D', M', Z.sub_0_r. constructor. }
  - exfalso. destruct (exec_sound p I ram Hb _ _ _ _ _ _ X cpuc Mc) as (cpu3 & S3 & (_ & _ & E3 & _)).
    destruct (steps_det p _ _ _ _ S2 _ _ (steps_app p _ _ _ _ Sc _ _ _ S3)) as [_ <-]. rewrite E3 in Eq.
    destruct C3 as (_ & _ & En3 & ES3 & Hu3 & _). pose proof (note_bounds p f ramb ram l (rS r) Hr Hp _ _ En3) as B3. rewrite ES3, ES1 in Eq. lia.
  - destruct (exec_sound p I ram Hb _ _ _ _ _ _ X cpuc Mc) as (cpu3 & S3 & (_ & _ & E3 & G3)).
    pose proof (steps_app p _ _ _ _ Sc _ _ _ S3) as S4. cbn [Nat.add] in S4.
    assert (Ei : i = j).
    { destruct (Nat.eq_dec i j) as [E|N]; [exact E|]. exfalso. apply (Hfirst (Datatypes.S i) _ _ ltac:(lia) S4). rewrite E3, F1, ES1. reflexivity. }
    subst i. destruct (steps_det p _ _ _ _ S2 _ _ S4) as [_ <-]. rewrite E3. split; [rewrite F2; exact A4|].
    intros i Hi'. rewrite ES1 in Hi'. pose proof (stack_range (rS r - i)) as Hq.
    rewrite G3, Hf1 by (unfold u16; lia). rewrite F3, A2 by lia. reflexivity.
Qed.

(** ** A concrete case *)
(** A main program that calls a routine over and over and stores what it gets;
    the routine saves A and calls another, which saves the flags. *)
Definition nested_code : list Z :=
  [ 0xa2; 0x05;            (* 8000  LDX #5 *)
    0x20; 0x0b; 0x80;      (* 8002  JSR 800b *)
    0x9d; 0x00; 0x02;      (* 8005  STA 0200,X *)
    0x4c; 0x02; 0x80;      (* 8008  JMP 8002 *)
    0x48;                  (* 800b  PHA *)
    0x20; 0x14; 0x80;      (* 800c  JSR 8014 *)
    0x68;                  (* 800f  PLA *)
    0xd0; 0x03;            (* 8010  BNE 8013 *)
    0xca;                  (* 8012  DEX *)
    0x60;                  (* 8013  RTS *)
    0xe6; 0x10;            (* 8014  INC 10 *)
    0x08;                  (* 8016  PHP *)
    0xa5; 0x10;            (* 8017  LDA 10 *)
    0x28;                  (* 8019  PLP *)
    0x60 ].                (* 801a  RTS *)
Definition nested_notes : listing :=
  [ mkNote 0x8000 0 0 true; mkNote 0x8002 0 0 true; mkNote 0x8005 0 0 true; mkNote 0x8008 0 0 true;
    mkNote 0x800b 0 2 false; mkNote 0x800c 1 3 false; mkNote 0x800f 1 3 false; mkNote 0x8010 0 2 false; mkNote 0x8012 0 2 false; mkNote 0x8013 0 2 false;
    mkNote 0x8014 0 5 false; mkNote 0x8016 0 5 false; mkNote 0x8017 1 6 false; mkNote 0x8019 1 6 false; mkNote 0x801a 0 5 false ].
Definition low_kilobyte (q : Z) : bool := (0 <=? q) && (q <=? 0x3ff).
Definition nested_bytes : Z -> Z := bytes_at Debug [] nested_code 1 2 3 0x01 ps0.

Lemma nested_checked : checked Debug (plain_with (fun b => 0 <= b <= 0x3ff)) (fun b => 0 <= b <= 0x3ff) (machine [] nested_code 1 2 3 0x01 ps0)
  (mkRegs 1 2 3 0x01 0x8000 ps0) nested_bytes low_kilobyte nested_notes.
Proof.
  split; [apply plain_ram_bus|]. split; [apply demo_with; reflexivity|]. split; [unfold low_kilobyte; lia|]. split; [vm_compute; reflexivity|].
  exists (mkNote 0x8000 0 0 true). split; [reflexivity|]. cbn. lia.
Qed.

(** It runs for ever, on a stack that wraps around, and uses six bytes of it. *)
Example C131_case :
  (forall n, exists cpu', run Debug (machine [] nested_code 1 2 3 0x01 ps0) n = Ok (Ready cpu')) /\
  (forall k, exists t cpu', runs Debug k t (machine [] nested_code 1 2 3 0x01 ps0) cpu' /\
     exists u, 0 <= u <= 6 /\ reg_sp cpu' = (1 - u) mod 256).
Proof.
  split; [exact (C131_checked_code_never_panics _ _ _ _ _ _ _ _ _ _ nested_checked)|].
  intros k. destruct (C131_checked_code_runs _ _ _ _ _ _ _ _ _ _ nested_checked k) as (t & cpu' & r' & f' & R & (_ & _ & Er & _) & (n & u & En & ES & Hu & _) & _).
  exists t, cpu'. split; [exact R|]. exists u. assert (Hin : In n nested_notes) by (unfold noted in En; apply find_some in En; tauto).
  split.
  - assert (T : forallb (fun n => (n_height n <=? 6) && (0 <=? n_depth n)) nested_notes = true) by reflexivity.
    rewrite forallb_forall in T. specialize (T n Hin). lia.
  - rewrite <- Er in ES. exact ES.
Qed.
(** Code that does not pass: a routine that returns without pulling what it
    pushed, one that pulls its return address, one that calls itself, a store
    onto the stack, a store into the code, and a jump past the end. *)
Definition refuses (prog : list Z) (l : listing) : bool :=
  negb (passes Debug (bytes_at Debug [] prog 1 2 3 0xff ps0) low_kilobyte l).
Example C131_refused :
  refuses [0x20; 0x06; 0x80; 0x4c; 0x00; 0x80; 0x48; 0x60] [mkNote 0x8000 0 0 true; mkNote 0x8003 0 0 true; mkNote 0x8006 0 2 false; mkNote 0x8007 1 3 false] = true /\
  refuses [0x20; 0x06; 0x80; 0x4c; 0x00; 0x80; 0x68; 0x60] [mkNote 0x8000 0 0 true; mkNote 0x8003 0 0 true; mkNote 0x8006 0 2 false; mkNote 0x8007 0 2 false] = true /\
  refuses [0x20; 0x06; 0x80; 0x4c; 0x00; 0x80; 0x20; 0x06; 0x80; 0x60] [mkNote 0x8000 0 0 true; mkNote 0x8003 0 0 true; mkNote 0x8006 0 2 false; mkNote 0x8009 0 2 false] = true /\
  refuses [0x8d; 0xff; 0x01; 0x4c; 0x00; 0x80] [mkNote 0x8000 0 0 true; mkNote 0x8003 0 0 true] = true /\
  refuses [0x8d; 0x01; 0x80; 0x4c; 0x00; 0x80] [mkNote 0x8000 0 0 true; mkNote 0x8003 0 0 true] = true /\
  refuses [0xea; 0x4c; 0x05; 0x80] [mkNote 0x8000 0 0 true; mkNote 0x8001 0 0 true] = true.
Proof. repeat split; vm_compute; reflexivity. Qed.
(** The same memory with the STA replaced by one that reaches page zero and
    the rest of RAM passes. *)
Example C131_not_refused :
  refuses [0x8d; 0xff; 0x03; 0x4c; 0x00; 0x80] [mkNote 0x8000 0 0 true; mkNote 0x8003 0 0 true] = false.
Proof. vm_compute. reflexivity. Qed.

Print Assumptions C131_checked_code_runs.
Print Assumptions C131_checked_code_never_panics.
Print Assumptions C131_calls_return.
