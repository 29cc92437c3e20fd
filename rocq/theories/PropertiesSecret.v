(** C133: 6502 code that passes a static check of what it does with secret
    memory tells nothing about it: machines that differ only in secrets do the
    same instructions in the same time, at the same addresses, and remain the
    same except for secrets. *)
From Verif Require Import Base Arith ModelMap ModelRegs6502 ModelCpu6502 ModelStep ModelIsa6502 ModelRun6502 SpecMap Link6502 ProofRun6502 ProofBus
  SpecInstr ProofInstr ProofFrame Demo6502 Properties6502Mem ProofProgram PropertiesProgram PropertiesLive ProofExchange.
From Verif Require Import Spec6502 SpecBus SpecFrame SpecLive SpecProgram SpecExchange SpecCheck ProofCheck PropertiesCheck SpecSecret ProofSecret.

Section Alike.
Context {D : Type} `{Device D}.
Variables (p : profile) (I : address_map D -> Prop) (ram : Z -> Prop) (cpu1 cpu2 : mos6502 D) (r1 r2 : registers) (f1 f2 : Z -> Z) (ramb : Z -> bool) (l : listing) (P : policy).
Hypothesis Hc1 : checked p I ram cpu1 r1 f1 ramb l.
Hypothesis Hc2 : checked p I ram cpu2 r2 f2 ramb l.
Hypothesis Hk : keeps_secrets P f1 l = true.
Hypothesis Hl : look_alike p P cpu1 cpu2.

Lemma alike_exec k : exists t cpu1' cpu2' r1' f1' r2' f2' n u1 u2, runs p k t cpu1 cpu1' /\ runs p k t cpu2 cpu2' /\
  machine_with p I cpu1' r1' f1' /\ machine_with p I cpu2' r2' f2' /\
  core f1 l (rS r1) r1' f1' n u1 /\ core f2 l (rS r1) r2' f2' n u2 /\ agree P r1' f1' r2' f2'.
Proof.
  destruct (checked_start p I ram cpu1 r1 f1 ramb l Hc1) as (n1 & C1 & T1).
  destruct (checked_start p I ram cpu2 r2 f2 ramb l Hc2) as (n2 & C2 & T2).
  destruct Hc1 as (Hb & M1 & Hr & Hp1 & _). destruct Hc2 as (_ & M2 & _ & Hp2 & _).
  pose proof M1 as (_ & _ & E1 & G1). pose proof M2 as (_ & _ & E2 & G2). destruct Hl as (L1 & L2 & L3 & L4). rewrite E1, E2 in *.
  assert (Op : forall q, u16 q -> secret P q = false -> f1 q = f2 q) by (intros q Hq Hs; rewrite <- G1, <- G2 by exact Hq; apply L4; assumption).
  rewrite <- L2 in C2, T2.
  assert (n2 = n1). { destruct C1 as (_ & _ & N1 & _). destruct C2 as (_ & _ & N2 & _). rewrite L1 in N1. congruence. } subst n2.
  pose proof (machine_bytes p I ram cpu1 r1 f1 Hb M1) as Hv.
  assert (A : agree P r1 f1 r2 f2).
  { split; [exact L1|]. split; [|exact Op]. constructor; [exact L2|exact L3]. }
  destruct (pair_run p P f1 f2 ramb ram l (rS r1) Hr Hp1 Hp2 Hk Op k Hv r1 f1 r2 f2 n1 0 0 C1 C2 T1 T2 A)
    as (t & r1' & f1' & r2' & f2' & n' & u1' & u2' & X1 & X2 & D1 & D2 & _ & _ & A').
  destruct (exec_runs p I ram k t r1 f1 r1' f1' cpu1 Hb X1 M1) as (cpu1' & R1 & M1').
  destruct (exec_runs p I ram k t r2 f2 r2' f2' cpu2 Hb X2 M2) as (cpu2' & R2 & M2').
  exists t, cpu1', cpu2', r1', f1', r2', f2', n', u1', u2'. auto 10.
Qed.

Lemma agree_alike cpu1' cpu2' r1' f1' r2' f2' : machine_with p I cpu1' r1' f1' -> machine_with p I cpu2' r2' f2' -> agree P r1' f1' r2' f2' ->
  look_alike p P cpu1' cpu2'.
Proof.
  intros (_ & _ & E1 & G1) (_ & _ & E2 & G2) (A1 & A2 & A3). unfold look_alike. rewrite E1, E2. apply Forall_cons_iff in A2 as [AS A2].
  split; [exact A1|]. split; [exact AS|]. split; [exact A2|]. intros q Hq Hs. rewrite G1, G2 by exact Hq. apply A3; assumption.
Qed.
End Alike.

(** After any number of instructions the two machines have used the same number
    of cycles and still look alike. *)
Theorem C133_secrets_never_show : forall D (HD : Device D) p I ram (cpu1 cpu2 : mos6502 D) r1 r2 f1 f2 ramb l P,
  checked p I ram cpu1 r1 f1 ramb l -> checked p I ram cpu2 r2 f2 ramb l -> keeps_secrets P f1 l = true -> look_alike p P cpu1 cpu2 ->
  forall k, exists t cpu1' cpu2', runs p k t cpu1 cpu1' /\ runs p k t cpu2 cpu2' /\ look_alike p P cpu1' cpu2'.
Proof.
  intros D HD p I ram cpu1 cpu2 r1 r2 f1 f2 ramb l P H1 H2 Hk Hl k.
  destruct (alike_exec p I ram cpu1 cpu2 r1 r2 f1 f2 ramb l P H1 H2 Hk Hl k) as (t & cpu1' & cpu2' & r1' & f1' & r2' & f2' & n & u1 & u2 & R1 & R2 & M1 & M2 & _ & _ & A).
  exists t, cpu1', cpu2'. split; [exact R1|]. split; [exact R2|]. exact (agree_alike p I P _ _ _ _ _ _ M1 M2 A).
Qed.

(** So do they after a call of [run] with any number of cycles. *)
Theorem C133_run_alike : forall D (HD : Device D) p I ram (cpu1 cpu2 : mos6502 D) r1 r2 f1 f2 ramb l P,
  checked p I ram cpu1 r1 f1 ramb l -> checked p I ram cpu2 r2 f2 ramb l -> keeps_secrets P f1 l = true -> look_alike p P cpu1 cpu2 ->
  forall n, exists cpu1' cpu2', run p cpu1 n = Ok (Ready cpu1') /\ run p cpu2 n = Ok (Ready cpu2') /\ look_alike p P cpu1' cpu2'.
Proof.
  intros D HD p I ram cpu1 cpu2 r1 r2 f1 f2 ramb l P H1 H2 Hk Hl n.
  destruct (C131_checked_code_never_panics D HD p I ram cpu1 r1 f1 ramb l H1 n) as (cpu1' & E1).
  pose proof E1 as E. apply run_ready_iff in E as (k & t & S1 & Ht & Hs).
  destruct (C133_secrets_never_show D HD p I ram cpu1 cpu2 r1 r2 f1 f2 ramb l P H1 H2 Hk Hl k) as (t' & c1 & c2 & [R1 _] & [R2 _] & A).
  destruct (steps_det p _ _ _ _ S1 _ _ R1) as [<- <-].
  exists cpu1', c2. split; [exact E1|]. split; [|exact A]. apply run_ready_iff. exists k, t. split; [exact R2|]. split; [exact Ht|].
  destruct Hs as [Hs|(c & cpu'' & Es & Hlt)]; [left; exact Hs|right].
  destruct (C133_secrets_never_show D HD p I ram cpu1 cpu2 r1 r2 f1 f2 ramb l P H1 H2 Hk Hl (S k)) as (t2 & d1 & d2 & [Q1 _] & [Q2 _] & _).
  assert (One : steps p 1 (c + 0) cpu1' cpu'') by (econstructor; [exact Es|constructor]).
  pose proof (steps_app p _ _ _ _ S1 _ _ _ One) as S2. rewrite Nat.add_1_r in S2. destruct (steps_det p _ _ _ _ Q1 _ _ S2) as [Et _].
  assert (Split : forall a b (x z : mos6502 D) s, steps p (a + b) s x z -> exists s1 s2 y, steps p a s1 x y /\ steps p b s2 y z /\ s = (s1 + s2)%nat).
  { clear. induction a as [|a IH]; intros b x z s K.
    - exists 0%nat, s, x. split; [constructor|]. auto.
    - cbn [Nat.add] in K. inversion K; subst. match goal with B : steps p (a + b) _ _ _ |- _ => destruct (IH _ _ _ _ B) as (s1 & s2 & y & Y1 & Y2 & ->) end.
      eexists _, s2, y. split; [econstructor; eassumption|]. split; [exact Y2|]. lia. }
  rewrite <- Nat.add_1_r in Q2. destruct (Split _ _ _ _ _ Q2) as (s1 & s2 & y & Y1 & Y2 & Es2). destruct (steps_det p _ _ _ _ Y1 _ _ R2) as [-> ->].
  inversion Y2 as [|k0 t0 c' x cpu3 z Eo K3 Ek0 Et0]; subst. inversion K3; subst. exists c', d2. split; [exact Eo|]. lia.
Qed.

(** The two machines always are at the same instruction, whose bytes and whose
    reads and writes are at the same addresses. *)
Theorem C133_same_addresses : forall D (HD : Device D) p I ram (cpu1 cpu2 : mos6502 D) r1 r2 f1 f2 ramb l P,
  checked p I ram cpu1 r1 f1 ramb l -> checked p I ram cpu2 r2 f2 ramb l -> keeps_secrets P f1 l = true -> look_alike p P cpu1 cpu2 ->
  forall k t1 t2 cpu1' cpu2', steps p k t1 cpu1 cpu1' -> steps p k t2 cpu2 cpu2' ->
  let at1 := fun d => peek p (amap cpu1') (rPC (regs_of cpu1') + d) in let at2 := fun d => peek p (amap cpu2') (rPC (regs_of cpu2') + d) in
  exists mn m c, decode (at1 0) = Some (mn, m, c) /\ decode (at2 0) = Some (mn, m, c) /\
    rPC (regs_of cpu1') = rPC (regs_of cpu2') /\ (forall d, 0 <= d < length_of m -> at1 d = at2 d) /\
    reads_of mn m (regs_of cpu1') (peek p (amap cpu1')) (at1 1) (at1 2) = reads_of mn m (regs_of cpu2') (peek p (amap cpu2')) (at2 1) (at2 2) /\
    writes_of mn m (regs_of cpu1') (peek p (amap cpu1')) (at1 1) (at1 2) = writes_of mn m (regs_of cpu2') (peek p (amap cpu2')) (at2 1) (at2 2).
Proof.
  intros D HD p I ram cpu1 cpu2 r1 r2 f1 f2 ramb l P H1 H2 Hk Hl k t1 t2 cpu1' cpu2' S1 S2 at1 at2.
  destruct (alike_exec p I ram cpu1 cpu2 r1 r2 f1 f2 ramb l P H1 H2 Hk Hl k) as (t & c1 & c2 & r1' & f1' & r2' & f2' & n & u1 & u2 & [R1 _] & [R2 _] & M1 & M2 & C1 & C2 & A).
  destruct (steps_det p _ _ _ _ S1 _ _ R1) as [_ <-]. destruct (steps_det p _ _ _ _ S2 _ _ R2) as [_ <-]. clear S1 S2 R1 R2.
  destruct H1 as (Hb & N1 & Hr & Hp1 & _). destruct H2 as (_ & N2 & _ & Hp2 & _).
  assert (Op : forall q, u16 q -> secret P q = false -> f1 q = f2 q).
  { destruct N1 as (_ & _ & _ & G1). destruct N2 as (_ & _ & _ & G2). intros q Hq Hs. rewrite <- G1, <- G2 by exact Hq. apply Hl; assumption. }
  pose proof (machine_bytes p I ram cpu1 r1 f1 Hb N1) as Hv.
  destruct M1 as (_ & _ & E1 & G1). destruct M2 as (_ & _ & E2 & G2). destruct A as (A1 & A2 & A3).
  pose proof C1 as (_ & _ & En & _ & _ & Hch1). pose proof C2 as (_ & _ & En2 & _ & _ & Hch2).
  destruct (noted_ok p f1 ramb l Hp1 _ _ En) as (Ha & Hin & _). pose proof (note_bounds p f1 ramb ram l (rS r1) Hr Hp1 _ _ En) as B.
  destruct (noted_instr p P f1 f2 ramb ram l (rS r1) Hr Hp1 Hk Op n Hv Hin) as (mn & m & c & b1 & b2 & cl & I1 & I2 & Eb1 & Eb2 & Sb & _ & _ & _ & Htp & Hidx & _).
  pose proof (length_range m) as Hlen.
  assert (O1 : forall d, 0 <= d < length_of m -> at1 d = f1 (n_at n + d)).
  { intros d Hd. unfold at1. rewrite E1, G1 by (unfold u16; lia). rewrite <- Ha. exact (own_bytes p f1 ramb ram l (rS r1) Hr Hp1 f1' n mn m c d Hch1 Hin I1 Hd). }
  assert (O2 : forall d, 0 <= d < length_of m -> at2 d = f2 (n_at n + d)).
  { intros d Hd. unfold at2. rewrite E2, <- A1, G2 by (unfold u16; lia). rewrite <- Ha. exact (own_bytes p f2 ramb ram l (rS r1) Hr Hp2 f2' n mn m c d Hch2 Hin I2 Hd). }
  assert (O0 : forall d, 0 <= d < length_of m -> at1 d = at2 d).
  { intros d Hd. rewrite O1, O2 by exact Hd. assert (d = 0 \/ d = 1 \/ d = 2) as [-> | [-> | ->]] by lia.
    - rewrite Z.add_0_r. unfold keeps_secrets in Hk. apply andb_prop in Hk as [_ Hf]. rewrite forallb_forall in Hf. specialize (Hf n Hin). unfold keeps_ok in Hf. rewrite I1 in Hf.
      apply andb_prop in Hf as [Hf _]. apply andb_prop in Hf as [Hf _]. apply andb_prop in Hf as [Hf _]. apply andb_prop in Hf as [Hf _]. apply andb_prop in Hf as [Hf _].
      rewrite forallb_forall in Hf. specialize (Hf 0%nat ltac:(apply in_seq; lia)). apply Bool.negb_true_iff in Hf. cbn [Z.of_nat] in Hf. rewrite Z.add_0_r in Hf.
      apply Op; [unfold u16; lia|exact Hf].
    - rewrite <- Eb1. apply Sb. lia.
    - rewrite <- Eb2. apply Sb. lia. }
  exists mn, m, c. pose proof (O1 0 ltac:(lia)) as Z1. pose proof (O2 0 ltac:(lia)) as Z2. rewrite Z.add_0_r in Z1, Z2.
  split; [rewrite Z1; exact I1|]. split; [rewrite Z2; exact I2|]. rewrite E1, E2. split; [exact A1|]. split; [exact O0|].
  apply same_places.
  - exact (decode_fits _ _ _ _ I1).
  - exact Htp.
  - apply Forall_cons_iff in A2 as [AS _]. exact AS.
  - split; intros Hlt; apply O0; lia.
  - apply Forall_forall. intros x Hx. specialize (Hidx x Hx). rewrite Ha in Hidx. exact (proj1 (Forall_forall _ _) A2 x Hidx).
Qed.

(** ** A concrete case *)
(** A program that over and over combines four bytes of a secret with four
    others in page zero, puts the result into page three, and counts in public. *)
Definition cipher_code : list Z :=
  [ 0xa2; 0x04;            (* 8000  LDX #4 *)
    0x20; 0x0b; 0x80;      (* 8002  JSR 800b *)
    0xca;                  (* 8005  DEX *)
    0xd0; 0xfc;            (* 8006  BNE 8002 *)
    0x4c; 0x00; 0x80;      (* 8008  JMP 8000 *)
    0xb5; 0x10;            (* 800b  LDA 10,X *)
    0x55; 0x20;            (* 800d  EOR 20,X *)
    0x9d; 0x00; 0x03;      (* 800f  STA 0300,X *)
    0xee; 0x00; 0x02;      (* 8012  INC 0200 *)
    0x60 ].                (* 8015  RTS *)
Definition cipher_notes : listing :=
  [ mkNote 0x8000 0 0 true; mkNote 0x8002 0 0 true; mkNote 0x8005 0 0 true; mkNote 0x8006 0 0 true; mkNote 0x8008 0 0 true;
    mkNote 0x800b 0 2 false; mkNote 0x800d 0 2 false; mkNote 0x800f 0 2 false; mkNote 0x8012 0 2 false; mkNote 0x8015 0 2 false ].
Definition pages_zero_and_three (q : Z) : bool := ((0 <=? q) && (q <=? 0xff)) || ((0x300 <=? q) && (q <=? 0x3ff)).
Definition cipher_policy : policy :=
  mkPolicy pages_zero_and_three (fun a => if a =? 0x8000 then [] else if a =? 0x8006 then [Reg RX; Flag FZ] else if a =? 0x8008 then [] else [Reg RX]) [Reg RX].
Definition key1 : list Z := repeat 0 16 ++ [1; 2; 3; 4; 5; 6].
Definition key2 : list Z := repeat 9 16 ++ [0; 0xff; 0; 0x80; 0; 77].
Definition cipher1 := machine key1 cipher_code 1 2 3 0xff ps0.
Definition cipher2 := machine key2 cipher_code 200 7 9 0xff ps0.

Lemma cipher1_checked : checked Debug (plain_with (fun b => 0 <= b <= 0x3ff)) (fun b => 0 <= b <= 0x3ff) cipher1
  (mkRegs 1 2 3 0xff 0x8000 ps0) (bytes_at Debug key1 cipher_code 1 2 3 0xff ps0) low_kilobyte cipher_notes.
Proof.
  split; [apply plain_ram_bus|]. split; [apply demo_with; reflexivity|]. split; [unfold low_kilobyte; lia|]. split; [vm_compute; reflexivity|].
  exists (mkNote 0x8000 0 0 true). split; [reflexivity|]. cbn. lia.
Qed.
Lemma cipher2_checked : checked Debug (plain_with (fun b => 0 <= b <= 0x3ff)) (fun b => 0 <= b <= 0x3ff) cipher2
  (mkRegs 200 7 9 0xff 0x8000 ps0) (bytes_at Debug key2 cipher_code 200 7 9 0xff ps0) low_kilobyte cipher_notes.
Proof.
  split; [apply plain_ram_bus|]. split; [apply demo_with; reflexivity|]. split; [unfold low_kilobyte; lia|]. split; [vm_compute; reflexivity|].
  exists (mkNote 0x8000 0 0 true). split; [reflexivity|]. cbn. lia.
Qed.
(** Machines with different contents of page zero agree everywhere else. *)
Lemma other_pages zp1 zp2 prog a1 x1 y1 s1 p1 a2 x2 y2 s2 p2 q : Z.of_nat (length zp1) <= 256 -> Z.of_nat (length zp2) <= 256 -> 256 <= q < 65536 ->
  peek Debug (amap (machine zp1 prog a1 x1 y1 s1 p1)) q = peek Debug (amap (machine zp2 prog a2 x2 y2 s2 p2)) q.
Proof.
  intros L1 L2 Hq. unfold peek. cbn [machine amap am_read device]. unfold key_contains. cbn [range_lo range_hi].
  destruct ((0 <=? q) && (q <=? 0x3ff)) eqn:E; [|reflexivity]. cbn [dev_read memory_device]. unfold memory_read. cbn [start_address mem_inner].
  assert (G : forall zp : list Z, Z.of_nat (length zp) <= 256 ->
    (do! o <- sub_u16 Debug q 0 ; vec_get (zp ++ repeat 0 (Z.to_nat (1024 - Z.of_nat (length zp)))) o) = Ok 0).
  { intros zp L. assert (S0 : sub_u16 Debug q 0 = Ok q).
    { unfold sub_u16, Base.checked. rewrite Z.sub_0_r. replace ((0 <=? q) && (q <? 65536)) with true by lia. reflexivity. }
    rewrite S0. cbn [bind]. unfold vec_get. replace (q <? 0) with false by lia. rewrite nth_error_app2 by lia. rewrite nth_error_repeat by lia. reflexivity. }
  rewrite !G by assumption. reflexivity.
Qed.
Lemma ciphers_alike : look_alike Debug cipher_policy cipher1 cipher2.
Proof.
  split; [reflexivity|]. split; [reflexivity|]. split; [constructor|]. intros q Hq Hs.
  apply other_pages; [vm_compute; discriminate|vm_compute; discriminate|].
  cbn [secret cipher_policy] in Hs. unfold pages_zero_and_three in Hs. unfold u16 in Hq. lia.
Qed.
Lemma cipher_keeps : keeps_secrets cipher_policy (bytes_at Debug key1 cipher_code 1 2 3 0xff ps0) cipher_notes = true.
Proof. vm_compute. reflexivity. Qed.

(** The two machines do the same for ever, although what they compute differs. *)
Example C133_case :
  (forall n, exists cpu1' cpu2', run Debug cipher1 n = Ok (Ready cpu1') /\ run Debug cipher2 n = Ok (Ready cpu2') /\ look_alike Debug cipher_policy cpu1' cpu2') /\
  match run Debug cipher1 60, run Debug cipher2 60 with
  | Ok (Ready a), Ok (Ready b) => peek Debug (amap a) 0x200 = peek Debug (amap b) 0x200 /\ peek Debug (amap a) 0x200 = 1 /\ peek Debug (amap a) 0x304 <> peek Debug (amap b) 0x304
  | _, _ => False
  end.
Proof.
  split.
  - exact (C133_run_alike _ _ _ _ _ _ _ _ _ _ _ _ _ _ cipher1_checked cipher2_checked cipher_keeps ciphers_alike).
  - vm_compute. repeat split; discriminate.
Qed.

(** Code that does not pass: a branch on a secret, a secret stored in public
    memory, a secret index, a secret pushed, a secret handed over by a jump as
    public, and a routine that returns one in a register that is public on
    return. *)
Definition tells (prog : list Z) (l : listing) (pub : Z -> list part) (ret : list part) : bool :=
  negb (keeps_secrets (mkPolicy pages_zero_and_three pub ret) (bytes_at Debug [] prog 1 2 3 0xff ps0) l).
Definition lines (l : list Z) : listing := map (fun a => mkNote a 0 0 true) l.
Example C133_refused :
  tells [0xa5; 0x10; 0xf0; 0x03; 0xea; 0x4c; 0x00; 0x80] (lines [0x8000; 0x8002; 0x8004; 0x8005]) (fun _ => []) [] = true /\
  tells [0xa5; 0x10; 0x8d; 0x00; 0x02; 0x4c; 0x00; 0x80] (lines [0x8000; 0x8002; 0x8005]) (fun _ => []) [] = true /\
  tells [0xa6; 0x10; 0xbd; 0x00; 0x02; 0x4c; 0x00; 0x80] (lines [0x8000; 0x8002; 0x8005]) (fun _ => []) [] = true /\
  tells [0xa5; 0x10; 0x48; 0x68; 0x4c; 0x00; 0x80] (lines [0x8000; 0x8002; 0x8003; 0x8004]) (fun _ => []) [] = true /\
  tells [0xa5; 0x10; 0x4c; 0x00; 0x80] (lines [0x8000; 0x8002]) (fun a => if a =? 0x8000 then [Reg RA] else []) [] = true /\
  tells [0x20; 0x06; 0x80; 0x4c; 0x00; 0x80; 0xa6; 0x10; 0x60] (lines [0x8000; 0x8003; 0x8006; 0x8008]) (fun _ => []) [Reg RX] = true /\
  tells [0x20; 0x06; 0x80; 0x4c; 0x00; 0x80; 0xa6; 0x10; 0x60] (lines [0x8000; 0x8003; 0x8006; 0x8008]) (fun a => if a =? 0x8003 then [Reg RX] else []) [] = true.
Proof. repeat split; vm_compute; reflexivity. Qed.
Example C133_not_refused :
  tells [0x20; 0x06; 0x80; 0x4c; 0x00; 0x80; 0xa6; 0x10; 0x60] (lines [0x8000; 0x8003; 0x8006; 0x8008]) (fun _ => []) [] = false /\
  tells [0xa5; 0x20; 0x8d; 0x00; 0x03; 0x4c; 0x00; 0x80] (lines [0x8000; 0x8002; 0x8005]) (fun _ => []) [] = false.
Proof. split; vm_compute; reflexivity. Qed.
(** And such code does tell: the branch on the secret byte. *)
Example C133_leak :
  match run Debug (machine [0] [0xa5; 0x00; 0xf0; 0x03; 0xea; 0x4c; 0x00; 0x80] 1 2 3 0xff ps0) 5, run Debug (machine [1] [0xa5; 0x00; 0xf0; 0x03; 0xea; 0x4c; 0x00; 0x80] 1 2 3 0xff ps0) 5 with
  | Ok (Ready a), Ok (Ready b) => rPC (regs_of a) <> rPC (regs_of b)
  | _, _ => False
  end.
Proof. vm_compute. discriminate. Qed.

Print Assumptions C133_secrets_never_show.
Print Assumptions C133_run_alike.
Print Assumptions C133_same_addresses.
