(** C139: 6502 code that passes the check of C131 stays in its code, keeps its
    stack in order and never panics, whatever the host does to data and
    registers between calls of [run]. *)
From Verif Require Import Base Arith ModelMap ModelRegs6502 ModelCpu6502 ModelStep ModelIsa6502 ModelRun6502 SpecMap Link6502 ProofRun6502 ProofBus
  SpecInstr ProofInstr Demo6502 Properties6502Mem Spec6502 SpecProgram ProofProgram PropertiesProgram SpecCheck ProofCheck PropertiesCheck
  SpecTamper ProofTamper.

Lemma session_good {D} `{Device D} p I ram (cpu : mos6502 D) r f ramb l ns cpu' : checked p I ram cpu r f ramb l ->
  session p I f l (rS r) cpu ns cpu' -> exists h, good p I f ramb l (rS r) h cpu'.
Proof.
  intros Hc Hs. destruct (checked_start p I ram cpu r f ramb l Hc) as (n & C & T). destruct Hc as (Hb & M & Hr & Hp & _).
  apply (good_session p I ram f ramb l (rS r) Hb Hr Hp cpu ns cpu' Hs f). split; [reflexivity|]. split; [exact Hp|]. exists r, f, n, 0. auto.
Qed.

(** After any number of calls of [run], with anything done to the machine
    before each of them that leaves the code, the program counter and the used
    part of the stack alone, the machine is at an instruction of the listing
    with the stack within its noted bounds, the code is as it was, and
    whatever the host does next, the next call of [run] returns too. *)
Theorem C139_the_host_cannot_derail_it : forall D (HD : Device D) p I ram (cpu : mos6502 D) r f ramb l,
  checked p I ram cpu r f ramb l ->
  forall ns cpu', session p I f l (rS r) cpu ns cpu' ->
  I (amap cpu') /\ regs_ok (regs_of cpu') /\
  (exists n u, noted l (rPC (regs_of cpu')) = Some n /\ rS (regs_of cpu') = (rS r - u) mod 256 /\
     n_depth n <= u <= n_height n /\ u <= 255 /\ (n_main n = true -> u = n_depth n)) /\
  (forall q, code_byte f l q = true -> peek p (amap cpu') q = f q) /\
  forall cpu1, tampers p I f l (rS r) cpu' cpu1 -> forall n, exists cpu2, run p cpu1 n = Ok (Ready cpu2).
Proof.
  intros D HD p I ram cpu r f ramb l Hc ns cpu' Hs. destruct (session_good p I ram cpu r f ramb l ns cpu' Hc Hs) as (h & G).
  destruct Hc as (Hb & _ & Hr & Hp & _). pose proof G as (Hh & Ph & r' & f' & n & u & M & C & T).
  pose proof M as (Hi & Ho & Er & Hf). pose proof C as (_ & _ & En & ES & Hu & Hch). pose proof (note_bounds p h ramb ram l (rS r) Hr Ph _ _ En) as B.
  rewrite Er. split; [exact Hi|]. split; [exact Ho|]. split.
  { exists n, u. split; [exact En|]. split; [exact ES|]. split; [exact Hu|]. split; [lia|]. intros Em. rewrite Em in T. inversion T. lia. }
  split.
  { intros q Hq. rewrite Hf by exact (code_u16 p f f ramb l (fun _ _ => eq_refl) q Hp Hq). rewrite <- Hh by exact Hq.
    apply (code_kept p h ramb ram l (rS r) Hr Ph f' q Hch). rewrite (code_same f h l Hh). exact Hq. }
  intros cpu1 Ht n1. pose proof (good_tampered p I ram f ramb l (rS r) Hb Hr Hp h cpu' cpu1 G Ht) as G1.
  exact (good_returns p I ram f ramb l (rS r) Hb Hr _ cpu1 n1 G1).
Qed.

(** Each of the calls changes only stack bytes and places the code names as
    places to store to: what the host puts anywhere else stays there. *)
Theorem C139_the_hosts_data_is_kept : forall D (HD : Device D) p I ram (cpu : mos6502 D) r f ramb l,
  checked p I ram cpu r f ramb l ->
  forall ns cpu', session p I f l (rS r) cpu ns cpu' ->
  forall cpu1, tampers p I f l (rS r) cpu' cpu1 -> forall n cpu2, run p cpu1 n = Ok (Ready cpu2) ->
  forall q, u16 q -> ~ (exists i, 0 <= i < deepest l /\ q = stack (rS r - i)) -> ~ stored_to f l q ->
  peek p (amap cpu2) q = peek p (amap cpu1) q.
Proof.
  intros D HD p I ram cpu r f ramb l Hc ns cpu' Hs cpu1 Ht n cpu2 Er q Hq N1 N2. destruct (session_good p I ram cpu r f ramb l ns cpu' Hc Hs) as (h & G).
  destruct Hc as (Hb & _ & Hr & Hp & _). pose proof (good_tampered p I ram f ramb l (rS r) Hb Hr Hp h cpu' cpu1 G Ht) as G1.
  destruct (good_run p I ram f ramb l (rS r) Hb Hr _ cpu1 n cpu2 G1 Er) as (Hh & Ph & r' & f' & n' & u & (_ & _ & _ & Hf) & (_ & _ & _ & _ & _ & Hch) & _).
  rewrite Hf by exact Hq. destruct (Z.eq_dec (f' q) (peek p (amap cpu1) q)) as [E|N]; [exact E|]. exfalso. destruct (Hch q N) as [K|K]; [exact (N1 K)|].
  apply N2. exact (stored_to_same p f _ ramb l Hh q Hp K).
Qed.

(** ** A concrete case *)
(** The program of C131, on a host that before every call sets A to 9, X to
    77, Y to 0 and puts 200 into the byte at 10 that the program counts in. *)
Definition meddled (cpu : mos6502 memory) : mos6502 memory :=
  mkMos6502 (match am_write Debug (amap cpu) 0x10 200 with Ok (m, _) => m | Panic => amap cpu end)
    9 77 0 (reg_sp cpu) (reg_pc cpu) (reg_ps cpu).
Definition kilobyte (b : Z) : Prop := 0 <= b <= 0x3ff.

Lemma meddled_tampers cpu : plain_with kilobyte (amap cpu) -> regs_ok (regs_of cpu) ->
  tampers Debug (plain_with kilobyte) nested_bytes nested_notes 1 cpu (meddled cpu).
Proof.
  intros Hi (_ & _ & _ & H4 & H5). destruct (plain_ram_bus Debug kilobyte) as (_ & W & _).
  destruct (W (amap cpu) 0x10 200 Hi ltac:(unfold u16; lia) ltac:(unfold kilobyte; lia) ltac:(unfold u8; lia)) as (m' & Ew & Hi' & Hk).
  unfold tampers, meddled. rewrite Ew. cbn [amap]. split; [exact Hi'|]. split; [unfold regs_ok; cbn; unfold u8; repeat split; try lia; apply H4 || apply H5|].
  split; [reflexivity|]. split; [reflexivity|]. intros q Hq K. rewrite Hk by exact Hq. destruct (Z.eqb_spec q 0x10) as [->|]; [|reflexivity]. exfalso.
  destruct K as [K|(i & _ & K)]; [vm_compute in K; discriminate K|]. pose proof (stack_range (1 - i)). lia.
Qed.

Lemma session_snoc {D} `{Device D} p I f l base (cpu : mos6502 D) ns cpu1 : session p I f l base cpu ns cpu1 ->
  forall cpu2 n cpu3, tampers p I f l base cpu1 cpu2 -> run p cpu2 n = Ok (Ready cpu3) -> session p I f l base cpu (ns ++ [n]) cpu3.
Proof.
  induction 1 as [c|c c1 c2 c3 k ns Ht Er Hs IH]; intros cpu2 n cpu3 Ht' Er'; cbn [app].
  - econstructor; [exact Ht'|exact Er'|constructor].
  - econstructor; [exact Ht|exact Er|]. eapply IH; eassumption.
Qed.

(** However the calls divide the time, all of them return, and the stack never
    holds more than six bytes. *)
Example C139_case : forall ns, exists cpu',
  session Debug (plain_with kilobyte) nested_bytes nested_notes 1 (machine [] nested_code 1 2 3 0x01 ps0) ns cpu' /\
  exists u, 0 <= u <= 6 /\ reg_sp cpu' = (1 - u) mod 256.
Proof.
  assert (G : forall ns, exists cpu', session Debug (plain_with kilobyte) nested_bytes nested_notes 1 (machine [] nested_code 1 2 3 0x01 ps0) ns cpu').
  { intros ns. induction ns as [|n ns IH] using rev_ind; [eexists; constructor|]. destruct IH as (cpu' & Hs).
    destruct (C139_the_host_cannot_derail_it _ _ _ _ _ _ _ _ _ _ nested_checked ns cpu' Hs) as (Hi & Ho & _ & _ & Hr).
    pose proof (meddled_tampers cpu' Hi Ho) as Ht. destruct (Hr (meddled cpu') Ht n) as (cpu2 & E). exists cpu2. eapply session_snoc; eassumption. }
  intros ns. destruct (G ns) as (cpu' & Hs). exists cpu'. split; [exact Hs|].
  destruct (C139_the_host_cannot_derail_it _ _ _ _ _ _ _ _ _ _ nested_checked ns cpu' Hs) as (_ & _ & (n & u & En & ES & Hu & _) & _).
  exists u. split; [|exact ES]. assert (Hin : In n nested_notes) by (unfold noted in En; apply find_some in En; tauto).
  assert (T : forallb (fun n => (n_height n <=? 6) && (0 <=? n_depth n)) nested_notes = true) by reflexivity.
  rewrite forallb_forall in T. specialize (T n Hin). lia.
Qed.

(** A host that changes a stack byte in use does derail it: here the upper
    byte of a return address, during the first call. *)
Definition during_call : mos6502 memory :=
  match run Debug (machine [] nested_code 1 2 3 0x01 ps0) 8 with Ok (Ready c) => c | _ => machine [] nested_code 1 2 3 0x01 ps0 end.
Definition derailed : mos6502 memory :=
  set_amap during_call (match am_write Debug (amap during_call) 0x101 0x50 with Ok (m, _) => m | Panic => amap during_call end).
Example C139_stack_matters :
  rPC (regs_of during_call) = 0x800b /\ in_use 1 (regs_of during_call) 0x101 /\
  exists cpu', run Debug derailed 44 = Ok (Ready cpu') /\ rPC (regs_of cpu') = 0x5005 /\ noted nested_notes 0x5005 = None.
Proof.
  split; [vm_compute; reflexivity|]. split; [exists 0; split; [vm_compute; split; [discriminate|reflexivity]|reflexivity]|].
  eexists. split; [vm_compute; reflexivity|]. split; reflexivity.
Qed.

Print Assumptions C139_the_host_cannot_derail_it.
Print Assumptions C139_the_hosts_data_is_kept.
