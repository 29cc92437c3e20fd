(** C135: 6502 code that passes a static check of what it relies on does on the
    documented 6502 what it does on the emulator. *)
From Verif Require Import Base Arith ModelMap ModelRegs6502 ModelCpu6502 ModelStep ModelIsa6502 ModelRun6502 SpecMap Link6502 ProofRun6502 ProofBus
  SpecInstr ProofInstr ProofFrame Demo6502 Properties6502Mem ProofProgram PropertiesProgram.
From Verif Require Import Spec6502 SpecFrame SpecProgram SpecCheck ProofCheck PropertiesCheck SpecDatasheet SpecPortable PropertiesPortable SpecSecret SpecPort ProofPort.

(** A machine about to run code that has passed both checks, and the chip, with
    registers [r2] and memory [g], about to run the same code with its
    displacements adapted. *)
Definition ported {D} `{Device D} (p : profile) (I : address_map D -> Prop) (ram : Z -> Prop) (cpu : mos6502 D) (r : registers) (f : Z -> Z)
  (ramb : Z -> bool) (l : listing) (P : port) (r2 : registers) (g : Z -> Z) : Prop :=
  checked p I ram cpu r f ramb l /\ portable P f l = true /\ tally P r r2 /\ ps_decimal (rP r2) = false /\
  (clear_at P (rPC r) = true -> ps_carry (rP r2) = false) /\ chip_memory f l f g.

(** After any number of instructions both have used the same number of cycles,
    and registers and memory still are the same. *)
Theorem C135_same_on_the_chip : forall D (HD : Device D) p I ram (cpu : mos6502 D) r f ramb l P r2 g,
  ported p I ram cpu r f ramb l P r2 g ->
  forall k, exists t cpu' r2' g', runs p k t cpu cpu' /\ chip ram k t (r2, g) (r2', g') /\
    tally P (regs_of cpu') r2' /\ chip_memory f l (peek p (amap cpu')) g'.
Proof.
  intros D HD p I ram cpu r f ramb l P r2 g (Hc & Hk & (T1 & T2 & T3 & T4 & T5 & T6) & Hd & Hcl & Hm) k.
  destruct (checked_start p I ram cpu r f ramb l Hc) as (n & C & T). destruct Hc as (Hb & M & Hr & Hp & _).
  pose proof (machine_bytes p I ram cpu r f Hb M) as Hv.
  assert (A : goes_with P f l r f r2 g).
  { split; [intros []; assumption|]. auto 10. }
  destruct (port_run p P f ramb ram l (rS r) Hr Hp Hk Hv k r f r2 g n 0 C T A) as (t & r1' & f1' & r2' & f2' & X1 & X2 & (A1 & A2 & A3 & _ & _ & A4)).
  destruct (exec_runs p I ram k t r f r1' f1' cpu Hb X1 M) as (cpu' & R & M').
  exists t, cpu', r2', f2'. split; [exact R|]. split; [exact X2|]. destruct M' as (_ & _ & E & G). rewrite E. split.
  - split; [exact (A1 RA)|]. split; [exact (A1 RX)|]. split; [exact (A1 RY)|]. split; [exact (A1 RS)|]. split; [exact A2|exact A3].
  - intros q Hq. rewrite G by exact Hq. apply A4. exact Hq.
Qed.

(** So whatever the chip has done after a number of instructions, the emulator
    has done too. *)
Theorem C135_as_on_the_chip : forall D (HD : Device D) p I ram (cpu : mos6502 D) r f ramb l P r2 g,
  ported p I ram cpu r f ramb l P r2 g ->
  forall k t r2' g', chip ram k t (r2, g) (r2', g') ->
  exists cpu', runs p k t cpu cpu' /\ tally P (regs_of cpu') r2' /\ chip_memory f l (peek p (amap cpu')) g'.
Proof.
  intros D HD p I ram cpu r f ramb l P r2 g H k t r2' g' X.
  destruct (C135_same_on_the_chip D HD p I ram cpu r f ramb l P r2 g H k) as (t' & cpu' & r3 & g3 & R & X' & A & B).
  destruct (chip_det _ _ _ _ _ X _ _ _ X') as [-> E]. injection E as -> ->. exists cpu'. auto.
Qed.

(** A call of [run] with any number of cycles leaves the emulator in a state
    the chip reaches as well. *)
Theorem C135_run_as_the_chip : forall D (HD : Device D) p I ram (cpu : mos6502 D) r f ramb l P r2 g,
  ported p I ram cpu r f ramb l P r2 g ->
  forall n, exists k t cpu' r2' g', run p cpu n = Ok (Ready cpu') /\ (t <= n)%nat /\ chip ram k t (r2, g) (r2', g') /\
    tally P (regs_of cpu') r2' /\ chip_memory f l (peek p (amap cpu')) g'.
Proof.
  intros D HD p I ram cpu r f ramb l P r2 g H n.
  destruct (C131_checked_code_never_panics D HD p I ram cpu r f ramb l (proj1 H) n) as (cpu' & E).
  pose proof E as E'. apply run_ready_iff in E' as (k & t & S1 & Ht & _).
  destruct (C135_same_on_the_chip D HD p I ram cpu r f ramb l P r2 g H k) as (t' & c' & r2' & g' & [R _] & X & A & B).
  destruct (steps_det p _ _ _ _ S1 _ _ R) as [<- <-]. exists k, t, cpu', r2', g'. auto 10.
Qed.

(** ** A concrete case *)
(** A program that over and over adds up four bytes of page zero in a
    subroutine, stores the sum, and counts the sums below 144. *)
Definition sum_code : list Z :=
  [ 0xa2; 0x04;            (* 8000  LDX #4 *)
    0xa9; 0x00;            (* 8002  LDA #0 *)
    0x20; 0x17; 0x80;      (* 8004  JSR 8017 *)
    0xca;                  (* 8007  DEX *)
    0xd0; 0xfc;            (* 8008  BNE 8004 *)
    0x8d; 0x00; 0x02;      (* 800a  STA 0200 *)
    0xc9; 0x90;            (* 800d  CMP #144 *)
    0xb0; 0x05;            (* 800f  BCS 8014 *)
    0xee; 0x01; 0x02;      (* 8011  INC 0201 *)
    0x4c; 0x00; 0x80;      (* 8014  JMP 8000 *)
    0x18;                  (* 8017  CLC *)
    0x75; 0x10;            (* 8018  ADC 10,X *)
    0x60 ].                (* 801a  RTS *)
Definition sum_notes : listing :=
  map (fun a => mkNote a 0 0 true) [0x8000; 0x8002; 0x8004; 0x8007; 0x8008; 0x800a; 0x800d; 0x800f; 0x8011; 0x8014] ++
  map (fun a => mkNote a 0 2 false) [0x8017; 0x8018; 0x801a].
Definition sum_port : port :=
  mkPort (fun a => if a =? 0x8008 then [FZ] else if a =? 0x800f then [FC] else if a =? 0x8018 then [FC] else []) (fun a => a =? 0x8018) [] false.
Definition sum_zp : list Z := repeat 0 17 ++ [10; 20; 30; 40].
Definition sum : mos6502 memory := machine sum_zp sum_code 1 2 3 0xff ps0.
Definition sum_memory : Z -> Z := bytes_at Debug sum_zp sum_code 1 2 3 0xff ps0.
Definition adapted (f : Z -> Z) (l : listing) : Z -> Z := fun q => if displacement f l q then (f q - 2) mod 256 else f q.

Lemma sum_ported : ported Debug (plain_with (fun b => 0 <= b <= 0x3ff)) (fun b => 0 <= b <= 0x3ff) sum
  (mkRegs 1 2 3 0xff 0x8000 ps0) sum_memory low_kilobyte sum_notes sum_port (mkRegs 1 2 3 0xff 0x8000 ps0) (adapted sum_memory sum_notes).
Proof.
  split.
  { split; [apply plain_ram_bus|]. split; [apply demo_with; reflexivity|]. split; [unfold low_kilobyte; lia|]. split; [vm_compute; reflexivity|].
    exists (mkNote 0x8000 0 0 true). split; [reflexivity|]. cbn. lia. }
  split; [vm_compute; reflexivity|]. split; [repeat split|]. split; [reflexivity|]. split; [vm_compute; discriminate|]. intros q _. reflexivity.
Qed.

(** The chip does for ever what the emulator does.  Its code is what an
    assembler for the 6502 gives. *)
Example C135_case :
  (forall n, exists k t cpu' r2' g', run Debug sum n = Ok (Ready cpu') /\ (t <= n)%nat /\
    chip (fun b => 0 <= b <= 0x3ff) k t (mkRegs 1 2 3 0xff 0x8000 ps0, adapted sum_memory sum_notes) (r2', g') /\
    tally sum_port (regs_of cpu') r2' /\ chip_memory sum_memory sum_notes (peek Debug (amap cpu')) g') /\
  map (adapted sum_memory sum_notes) [0x8008; 0x8009; 0x800f; 0x8010] = [0xd0; 0xfa; 0xb0; 0x03] /\
  match run Debug sum 120 with
  | Ok (Ready c) => peek Debug (amap c) 0x200 = 100 /\ peek Debug (amap c) 0x201 = 1
  | _ => False
  end.
Proof.
  split; [|split; [vm_compute; reflexivity|vm_compute; split; reflexivity]].
  exact (C135_run_as_the_chip _ _ _ _ _ _ _ _ _ _ _ _ _ sum_ported).
Qed.

(** Code that does not pass: a branch on the carry of a comparison with a byte
    below 128, an addition with the carry not known to be clear, a branch on the
    flags of DEY, status pulled from the stack, decimal mode, a displacement
    read as data, a branch whose displacement cannot be adapted, and one at the
    end of a page; and a routine that returns a flag it may get wrong. *)
Definition differs (prog : list Z) (l : list Z) (P : port) : bool := negb (portable P (bytes_at Debug [] prog 1 2 3 0xff ps0) (map (fun a => mkNote a 0 0 true) l)).
Example C135_refused :
  differs [0xc9; 0x05; 0x90; 0xfe; 0x4c; 0x00; 0x80] [0x8000; 0x8002; 0x8004] (mkPort (fun a => if a =? 0x8002 then [FC] else []) (fun _ => false) [] false) = true /\
  differs [0x69; 0x05; 0x4c; 0x00; 0x80] [0x8000; 0x8002] (mkPort (fun a => [FC]) (fun _ => false) [] false) = true /\
  differs [0x88; 0xd0; 0xff; 0x4c; 0x00; 0x80] [0x8000; 0x8001; 0x8003] (mkPort (fun a => if a =? 0x8001 then [FZ] else []) (fun _ => false) [] false) = true /\
  differs [0x28; 0x4c; 0x00; 0x80] [0x8000; 0x8001] (mkPort (fun a => []) (fun _ => false) [] false) = true /\
  differs [0xf8; 0x4c; 0x00; 0x80] [0x8000; 0x8001] (mkPort (fun a => []) (fun _ => false) [] false) = true /\
  differs [0xad; 0x04; 0x80; 0xd0; 0xfd; 0x4c; 0x00; 0x80] [0x8000; 0x8003; 0x8005] (mkPort (fun a => if a =? 0x8003 then [FZ] else []) (fun _ => false) [] false) = true /\
  differs [0xa9; 0x05; 0xd0; 0x81; 0x4c; 0x00; 0x80] [0x8000; 0x8002; 0x8004] (mkPort (fun a => if a =? 0x8002 then [FZ] else []) (fun _ => false) [] false) = true /\
  differs (repeat 0xea 254 ++ [0xd0; 0x02; 0x4c; 0x00; 0x80]) [0x80fe; 0x8100] (mkPort (fun a => if a =? 0x80fe then [FZ] else []) (fun _ => false) [] false) = true /\
  differs [0x20; 0x06; 0x80; 0x4c; 0x00; 0x80; 0x18; 0x69; 0x05; 0x60] [0x8000; 0x8003; 0x8006; 0x8007; 0x8009]
    (mkPort (fun a => if a =? 0x8007 then [FC] else if a =? 0x8003 then [FV] else []) (fun a => a =? 0x8007) [FV] false) = true.
Proof. repeat (split; [vm_compute; reflexivity|]). vm_compute. reflexivity. Qed.
(** Variants that do. *)
Example C135_not_refused :
  differs [0xc9; 0x85; 0x90; 0xfe; 0x4c; 0x00; 0x80] [0x8000; 0x8002; 0x8004] (mkPort (fun a => if a =? 0x8002 then [FC] else []) (fun _ => false) [] false) = false /\
  differs [0x18; 0x69; 0x05; 0x4c; 0x00; 0x80] [0x8000; 0x8001; 0x8003] (mkPort (fun a => if a =? 0x8001 then [FC] else []) (fun a => a =? 0x8001) [] false) = false /\
  differs [0x20; 0x06; 0x80; 0x4c; 0x00; 0x80; 0x18; 0x69; 0x05; 0x60] [0x8000; 0x8003; 0x8006; 0x8007; 0x8009]
    (mkPort (fun a => if a =? 0x8007 then [FC] else if (a =? 0x8003) || (a =? 0x8009) then [FC; FZ; FN] else []) (fun a => a =? 0x8007) [FC; FZ; FN] false) = false.
Proof. split; [vm_compute; reflexivity|]. split; vm_compute; reflexivity. Qed.
(** And the first of the refused programs does differ: with A = 0 the emulator
    finds that A is not below 5 and leaves the loop, the chip stays in it. *)
Example C135_difference :
  let prog := [0xc9; 0x05; 0x90; 0xfe; 0x4c; 0x00; 0x80] in
  match run Debug (machine [] prog 0 2 3 0xff ps0) 4 with Ok (Ready c) => rPC (regs_of c) = 0x8004 | _ => False end /\
  exists st, chip (fun _ => True) 2 5 (mkRegs 0 2 3 0xff 0x8000 ps0, adapted (bytes_at Debug [] prog 0 2 3 0xff ps0) [mkNote 0x8000 0 0 true; mkNote 0x8002 0 0 true]) st /\ rPC (fst st) = 0x8000.
Proof.
  split; [vm_compute; reflexivity|]. eexists. split.
  - change 5%nat with (2 + (3 + 0))%nat. econstructor; [eexists; split; [vm_compute; reflexivity|split; reflexivity]| | |].
    + intros [K _]. discriminate K.
    + intros e He. vm_compute in He. injection He as <-. constructor.
    + econstructor; [eexists; split; [vm_compute; reflexivity|split; reflexivity]| | |constructor].
      * intros [K _]. discriminate K.
      * intros e He. vm_compute in He. injection He as <-. constructor.
  - vm_compute. reflexivity.
Qed.

Print Assumptions C135_same_on_the_chip.
Print Assumptions C135_as_on_the_chip.
Print Assumptions C135_run_as_the_chip.
