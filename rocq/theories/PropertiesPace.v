(** C141: 6502 code that passes the timing check of C134 keeps time whatever
    the host does to data and registers between instructions. *)
From Verif Require Import Base Arith ModelMap ModelRegs6502 ModelCpu6502 ModelStep ModelIsa6502 ModelRun6502 SpecMap Link6502 ProofRun6502 ProofBus
  SpecInstr ProofInstr Demo6502 Properties6502Mem Spec6502 SpecProgram ProofProgram PropertiesProgram SpecCheck ProofCheck PropertiesCheck
  SpecTamper ProofTamper SpecBudget ProofBudget PropertiesBudget SpecPace ProofPace.

(** The host and the machine take turns, in any way, and then for [t] cycles of
    the machine no marked instruction is reached.  If the host lets the machine
    alone from there on, one is reached soon enough that no more than [W]
    cycles have passed in all. *)
Theorem C141_marks_keep_coming : forall D (HD : Device D) p I ram (cpu : mos6502 D) r f ramb l B W,
  paced p I ram cpu r f ramb l B W ->
  forall cpu1, turns p I f l (rS r) cpu cpu1 -> forall t cpu2, gap p I f l (rS r) B cpu1 t cpu2 ->
  exists j t2 cpu3, (0 < j)%nat /\ steps p j t2 cpu2 cpu3 /\ Z.of_nat (t + t2) <= W /\ marked B (rPC (regs_of cpu3)) = true.
Proof.
  intros D HD p I ram cpu r f ramb l B W Hc cpu1 Ht t cpu2 Hg. destruct (pace_start p I ram cpu r f ramb l B W Hc) as (w & P).
  destruct (facts p I ram cpu r f ramb l B W Hc) as (Hb & Hr & Hp & Hti & Hv).
  assert (G : going p I f l B W (rS r) f cpu (w + 0)).
  { split; [reflexivity|]. split; [exact Hv|]. destruct P as (r' & f' & n & u & M & St & Eb & Hw). exists r', f', n, u, w, 0. auto. }
  destruct (going_turns p I ram f ramb l B W (rS r) Hb Hr Hp Hti cpu cpu1 Ht f _ G) as (h1 & left1 & G1).
  destruct (going_gap p I ram f ramb l B W (rS r) Hb Hr Hp Hti cpu1 t cpu2 Hg h1 left1 G1) as (h2 & left2 & G2 & L2).
  destruct (going_mark p I ram f ramb l B W (rS r) Hb Hr Hp Hti (Z.to_nat left2) h2 cpu2 left2 G2 ltac:(lia)) as (j & t2 & cpu3 & Hj & S & Hle & Hm).
  exists j, t2, cpu3. split; [exact Hj|]. split; [exact S|]. split; [|exact Hm].
  destruct G1 as (_ & _ & r' & f' & n & u & w1 & T1 & _ & _ & _ & Hw & El). lia.
Qed.

(** So the machine never goes on for more than [W] cycles without reaching a
    marked instruction. *)
Theorem C141_no_long_gap : forall D (HD : Device D) p I ram (cpu : mos6502 D) r f ramb l B W,
  paced p I ram cpu r f ramb l B W ->
  forall cpu1, turns p I f l (rS r) cpu cpu1 -> forall t cpu2, gap p I f l (rS r) B cpu1 t cpu2 -> Z.of_nat t < W.
Proof.
  intros D HD p I ram cpu r f ramb l B W Hc cpu1 Ht t cpu2 Hg.
  destruct (C141_marks_keep_coming D HD p I ram cpu r f ramb l B W Hc cpu1 Ht t cpu2 Hg) as (j & t2 & cpu3 & Hj & S & Hle & _).
  inversion S as [|k t0 n c c1 y Eo S1 Ek Et]; subst; [lia|]. pose proof (step_cycles_pos _ _ _ _ Eo). lia.
Qed.

(** ** A concrete case *)
(** The program of C134, on a host that puts any byte into A, Y and the byte at
    10, which the routine branches on, after the first instruction. *)
Definition begun : mos6502 memory :=
  match observed_step Debug beat with Ok (_, c) => c | Panic => beat end.
Definition poked (v : Z) : mos6502 memory :=
  mkMos6502 (match am_write Debug (amap begun) 0x10 v with Ok (m, _) => m | Panic => amap begun end) v (reg_x begun) v (reg_sp begun) (reg_pc begun) (reg_ps begun).

Lemma poked_nudges v : u8 v -> nudges Debug (plain_with (fun b => 0 <= b <= 0x3ff)) (bytes_at Debug [] beat_code 1 2 3 0xff ps0) beat_notes 0xff begun (poked v).
Proof.
  intros Hv. pose proof beat_paced as ((Hb & M & _) & _).
  assert (M1 : plain_with (fun b => 0 <= b <= 0x3ff) (amap begun)).
  { replace (amap begun) with (amap beat) by (vm_compute; reflexivity). apply M. }
  destruct Hb as (_ & Wr & _). destruct (Wr (amap begun) 0x10 v M1 ltac:(unfold u16; lia) ltac:(lia) Hv) as (m' & Ew & Hi' & Hk).
  split; [|split; reflexivity]. unfold tampers, poked. rewrite Ew. cbn [amap]. split; [exact Hi'|].
  split; [unfold regs_ok; cbn [regs_of reg_acc reg_x reg_y reg_sp reg_pc rA rX rY rS rPC]; unfold u8, u16 in *; vm_compute (reg_x begun); vm_compute (reg_sp begun); vm_compute (reg_pc begun); lia|].
  split; [reflexivity|]. split; [reflexivity|]. intros q Hq K. rewrite Hk by exact Hq. destruct (Z.eqb_spec q 0x10) as [->|]; [|reflexivity]. exfalso.
  destruct K as [K|(i & _ & K)]; [vm_compute in K; discriminate K|]. pose proof (stack_range (255 - i)). lia.
Qed.

(** Two cycles have passed; the mark is reached within the other 178, whatever
    the host has put there. *)
Example C141_case : forall v, u8 v -> exists j t cpu', steps Debug j t (poked v) cpu' /\ (t <= 178)%nat /\ reg_pc cpu' = 0x8008.
Proof.
  intros v Hv.
  assert (G : gap Debug (plain_with (fun b => 0 <= b <= 0x3ff)) (bytes_at Debug [] beat_code 1 2 3 0xff ps0) beat_notes 0xff beat_budget beat (2 + 0) (poked v)).
  { apply gap_step with begun; [vm_compute; reflexivity|vm_compute; reflexivity|]. apply gap_host with (poked v); [exact (poked_nudges v Hv)|constructor]. }
  destruct (C141_marks_keep_coming _ _ _ _ _ _ _ _ _ _ _ _ beat_paced beat (turns_end _ _ _ _ _ _) _ _ G) as (j & t & cpu' & _ & S & Hle & Hm).
  exists j, t, cpu'. split; [exact S|]. split; [lia|]. apply Z.eqb_eq in Hm. exact Hm.
Qed.

(** A host that changes X is not covered: with X set to 255 the loop is still
    counting after 300 cycles. *)
Example C141_x_matters :
  match run Debug (mkMos6502 (amap begun) 1 255 3 (reg_sp begun) (reg_pc begun) (reg_ps begun)) 300 with
  | Ok (Ready c) => reg_x c = 247
  | _ => False
  end.
Proof. vm_compute. reflexivity. Qed.

Print Assumptions C141_marks_keep_coming.
Print Assumptions C141_no_long_gap.
