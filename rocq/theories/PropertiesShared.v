(** C142: 6502 code that passes the secrecy check of C133 tells nothing about
    secrets that the host hands it between calls of [run]. *)
From Verif Require Import Base Arith ModelMap ModelRegs6502 ModelCpu6502 ModelStep ModelIsa6502 ModelRun6502 SpecMap Link6502 ProofRun6502 ProofBus
  SpecInstr ProofInstr ProofFrame Demo6502 Properties6502Mem ProofProgram PropertiesProgram PropertiesLive ProofExchange.
From Verif Require Import Spec6502 SpecBus SpecFrame SpecLive SpecProgram SpecExchange SpecCheck ProofCheck PropertiesCheck SpecSecret ProofSecret PropertiesSecret
  SpecTamper ProofTamper PropertiesTamper SpecShared.

(** ** The secrecy check looks at the bytes of the code only *)
Definition keeps_body (P : policy) (n : note) (mn : mnemonic) (m : addressing_mode) (b1 b2 : Z) : bool :=
  let a := n_at n in
  let clean := inputs_public P mn m a b1 b2 in
  forallb (fun j => negb (secret P (a + Z.of_nat j))) (seq 0 (Z.to_nat (length_of m))) &&
  negb (through_pointer m) && all_among (index_of m) (public_at P a) &&
  (clean || (negb (public_only mn) && forallb (secret P) (places mn m b1 b2))) &&
  forallb (forallb (fun x => if among x (sets mn m) then clean else among x (public_at P a))) (needed_next P mn m a b1 b2) &&
  match mn with Jsr => all_among (public_at P (a + 3)) (public_back P) | _ => true end.
Lemma keeps_ok_body P f n mn m c : decode (f (n_at n)) = Some (mn, m, c) -> keeps_ok P f n = keeps_body P n mn m (f (n_at n + 1)) (f (n_at n + 2)).
Proof. intros E. unfold keeps_ok. rewrite E. reflexivity. Qed.

Definition secrecy_suffices (row : Z * (mnemonic * addressing_mode * nat)) : Prop :=
  let '(_, (mn, m, c)) := row in
  forall P n b1 b2 x1 x2, (2 <= length_of m -> x1 = b1) -> (3 <= length_of m -> x2 = b2) -> keeps_body P n mn m x1 x2 = keeps_body P n mn m b1 b2.
Lemma all_secrecy_suffices : Forall secrecy_suffices opcode_table.
Proof.
  unfold opcode_table, secrecy_suffices.
  repeat (apply Forall_cons; [|]); try apply Forall_nil.
  all: intros P n b1 b2 x1 x2 E1 E2;
    try (specialize (E1 ltac:(cbn [length_of]; lia)); subst x1);
    try (specialize (E2 ltac:(cbn [length_of]; lia)); subst x2);
    reflexivity.
Qed.
Lemma keeps_secrets_same P f g l : (forall q, code_byte f l q = true -> g q = f q) -> keeps_secrets P f l = true -> keeps_secrets P g l = true.
Proof.
  intros Hg H. unfold keeps_secrets in *. apply andb_prop in H as [H0 H]. apply andb_true_intro. split; [exact H0|].
  rewrite forallb_forall in *. intros n Hin. specialize (H n Hin).
  pose proof (first_same f g l Hg n Hin) as E0. destruct (decode (f (n_at n))) as [[[mn m] c]|] eqn:Ed; [|unfold keeps_ok in H; rewrite Ed in H; discriminate H].
  rewrite (keeps_ok_body P f n mn m c Ed) in H. rewrite (keeps_ok_body P g n mn m c) by (rewrite E0; exact Ed). rewrite <- H.
  apply (proj1 (Forall_forall _ _) all_secrecy_suffices _ (decode_row _ _ Ed)).
  - intros H2. apply (own_covered f g (fun _ => true) l Hg n mn m c 1 Hin Ed). lia.
  - intros H3. apply (own_covered f g (fun _ => true) l Hg n mn m c 2 Hin Ed). lia.
Qed.

(** ** Two machines in step *)
Lemma split_steps {D} `{Device D} p : forall a b (x z : mos6502 D) s, steps p (a + b) s x z ->
  exists s1 s2 y, steps p a s1 x y /\ steps p b s2 y z /\ s = (s1 + s2)%nat.
Proof.
  induction a as [|a IH]; intros b x z s K.
  - exists 0%nat, s, x. split; [constructor|]. auto.
  - cbn [Nat.add] in K. inversion K; subst. match goal with B : steps p (a + b) _ _ _ |- _ => destruct (IH _ _ _ _ B) as (s1 & s2 & y & Y1 & Y2 & ->) end.
    eexists _, s2, y. split; [econstructor; eassumption|]. split; [exact Y2|]. lia.
Qed.
Lemma alike_run {D} `{Device D} p P (c1 c2 : mos6502 D) :
  (forall k, exists t d1 d2, runs p k t c1 d1 /\ runs p k t c2 d2 /\ look_alike p P d1 d2) ->
  forall n d1, run p c1 n = Ok (Ready d1) -> exists d2, run p c2 n = Ok (Ready d2) /\ look_alike p P d1 d2.
Proof.
  intros K n cpu1' E1. apply run_ready_iff in E1 as (k & t & S1 & Ht & Hs). destruct (K k) as (t' & e1 & e2 & [R1 _] & [R2 _] & A).
  destruct (steps_det p _ _ _ _ S1 _ _ R1) as [<- <-].
  exists e2. split; [|exact A]. apply run_ready_iff. exists k, t. split; [exact R2|]. split; [exact Ht|].
  destruct Hs as [Hs|(c & cpu'' & Es & Hlt)]; [left; exact Hs|right].
  destruct (K (S k)) as (t2 & d1 & d2 & [Q1 _] & [Q2 _] & _).
  assert (One : steps p 1 (c + 0) cpu1' cpu'') by (econstructor; [exact Es|constructor]).
  pose proof (steps_app p _ _ _ _ S1 _ _ _ One) as S2. rewrite Nat.add_1_r in S2. destruct (steps_det p _ _ _ _ Q1 _ _ S2) as [Et _].
  rewrite <- Nat.add_1_r in Q2. destruct (split_steps p _ _ _ _ _ Q2) as (s1 & s2 & y & Y1 & Y2 & Es2). destruct (steps_det p _ _ _ _ Y1 _ _ R2) as [-> ->].
  inversion Y2 as [|k0 t0 c' x cpu3 z Eo K3 Ek0 Et0]; subst. inversion K3; subst. exists c', d2. split; [exact Eo|]. lia.
Qed.

Section Pair.
Context {D : Type} `{Device D}.
Variables (p : profile) (I : address_map D -> Prop) (ram : Z -> Prop) (f1 f2 : Z -> Z) (ramb : Z -> bool) (l : listing) (S0 : Z) (P : policy).
Hypothesis Hb : ram_bus p I ram.
Hypothesis Hr : forall q, ramb q = true -> ram q.
Hypothesis Hp1 : passes p f1 ramb l = true.
Hypothesis Hp2 : passes p f2 ramb l = true.
Hypothesis Hk : keeps_secrets P f1 l = true.

Definition both_good (a b : mos6502 D) : Prop :=
  (exists h1, good p I f1 ramb l S0 h1 a) /\ (exists h2, good p I f2 ramb l S0 h2 b).

(** Machines that the hosts have just changed. *)
Lemma fresh_alike a a1 b b1 : both_good a b -> tampers p I f1 l S0 a a1 -> tampers p I f2 l S0 b b1 -> look_alike p P a1 b1 ->
  forall k, exists t a2 b2, runs p k t a1 a2 /\ runs p k t b1 b2 /\ look_alike p P a2 b2.
Proof.
  intros ((h1 & G1) & (h2 & G2)) Ta Tb (L1 & L2 & L3 & L4) k.
  destruct (good_tampered p I ram f1 ramb l S0 Hb Hr Hp1 h1 a a1 G1 Ta) as (A1 & Q1 & r1 & g1 & n1 & u1 & M1 & C1 & T1).
  destruct (good_tampered p I ram f2 ramb l S0 Hb Hr Hp2 h2 b b1 G2 Tb) as (A2 & Q2 & r2 & g2 & n2 & u2 & M2 & C2 & T2).
  pose proof M1 as (Hi1 & Ho1 & E1 & Hf1). pose proof M2 as (_ & _ & E2 & Hf2). rewrite E1, E2 in *.
  assert (n2 = n1). { destruct C1 as (_ & _ & N1 & _). destruct C2 as (_ & _ & N2 & _). rewrite L1 in N1. congruence. } subst n2.
  assert (Op : forall q, u16 q -> secret P q = false -> peek p (amap a1) q = peek p (amap b1) q) by exact L4.
  assert (Hv : byte_valued (peek p (amap a1))).
  { apply (machine_bytes p I ram a1 (regs_of a1) (peek p (amap a1)) Hb). split; [exact Hi1|]. split; [rewrite E1; exact Ho1|]. split; reflexivity. }
  assert (A : agree P r1 g1 r2 g2).
  { split; [exact L1|]. split; [constructor; [exact L2|exact L3]|]. intros q Hq Hs. rewrite <- Hf1, <- Hf2 by exact Hq. apply L4; assumption. }
  destruct (pair_run p P (peek p (amap a1)) (peek p (amap b1)) ramb ram l S0 Hr Q1 Q2 (keeps_secrets_same P f1 _ l A1 Hk) Op k Hv r1 g1 r2 g2 n1 u1 u2 C1 C2 T1 T2 A)
    as (t & r1' & g1' & r2' & g2' & n' & u1' & u2' & X1 & X2 & D1 & D2 & _ & _ & A').
  destruct (exec_runs p I ram k t r1 g1 r1' g1' a1 Hb X1 M1) as (a2 & R1 & M1').
  destruct (exec_runs p I ram k t r2 g2 r2' g2' b1 Hb X2 M2) as (b2 & R2 & M2').
  exists t, a2, b2. split; [exact R1|]. split; [exact R2|]. exact (agree_alike p I P _ _ _ _ _ _ M1' M2' A').
Qed.

Lemma sides_good a b ns a' b' : side_by_side p I f1 f2 l S0 P a b ns a' b' -> both_good a b -> look_alike p P a b ->
  both_good a' b' /\ look_alike p P a' b'.
Proof.
  induction 1 as [a b|a b a1 b1 a2 b2 a3 b3 n ns Ta Tb L Ea Eb Hs IH]; intros G L0; [auto|]. pose proof G as ((h1 & G1) & (h2 & G2)). apply IH.
  - split.
    + eexists. eapply good_run; [exact Hb|exact Hr| |exact Ea]. exact (good_tampered p I ram f1 ramb l S0 Hb Hr Hp1 h1 a a1 G1 Ta).
    + eexists. eapply good_run; [exact Hb|exact Hr| |exact Eb]. exact (good_tampered p I ram f2 ramb l S0 Hb Hr Hp2 h2 b b1 G2 Tb).
  - destruct (alike_run p P a1 b1 (fresh_alike a a1 b b1 G Ta Tb L) n a2 Ea) as (b2' & Eb' & L2). assert (b2' = b2) by congruence. subst b2'. exact L2.
Qed.
End Pair.

(** ** The property *)
(** Two machines that differ only in secrets, and two hosts that before each
    call change their machines in ways that differ only in secrets: after each
    call the machines differ only in secrets, and for whatever the hosts do
    next, however many instructions are executed, they take the same time on
    both machines and leave them alike. *)
Theorem C142_new_secrets_never_show : forall D (HD : Device D) p I ram (cpu1 cpu2 : mos6502 D) r1 r2 f1 f2 ramb l P,
  checked p I ram cpu1 r1 f1 ramb l -> checked p I ram cpu2 r2 f2 ramb l -> keeps_secrets P f1 l = true -> look_alike p P cpu1 cpu2 ->
  forall ns a b, side_by_side p I f1 f2 l (rS r1) P cpu1 cpu2 ns a b ->
  look_alike p P a b /\
  forall a1 b1, tampers p I f1 l (rS r1) a a1 -> tampers p I f2 l (rS r1) b b1 -> look_alike p P a1 b1 ->
  (forall k, exists t a2 b2, runs p k t a1 a2 /\ runs p k t b1 b2 /\ look_alike p P a2 b2) /\
  forall n, exists a2 b2, run p a1 n = Ok (Ready a2) /\ run p b1 n = Ok (Ready b2) /\ look_alike p P a2 b2.
Proof.
  intros D HD p I ram cpu1 cpu2 r1 r2 f1 f2 ramb l P H1 H2 Hk Hl ns a b Hs.
  assert (ES : rS r1 = rS r2).
  { destruct H1 as (_ & (_ & _ & E1 & _) & _). destruct H2 as (_ & (_ & _ & E2 & _) & _). destruct Hl as (_ & L & _). rewrite E1, E2 in L. exact L. }
  destruct (session_good p I ram cpu1 r1 f1 ramb l [] cpu1 H1 (session_end _ _ _ _ _ _)) as (h1 & G1).
  destruct (session_good p I ram cpu2 r2 f2 ramb l [] cpu2 H2 (session_end _ _ _ _ _ _)) as (h2 & G2). rewrite <- ES in G2.
  pose proof H1 as (Hb & _ & Hr & Hp1 & _). pose proof H2 as (_ & _ & _ & Hp2 & _).
  destruct (sides_good p I ram f1 f2 ramb l (rS r1) P Hb Hr Hp1 Hp2 Hk cpu1 cpu2 ns a b Hs) as (G & L); [split; eauto|exact Hl|].
  split; [exact L|]. intros a1 b1 Ta Tb L1. pose proof (fresh_alike p I ram f1 f2 ramb l (rS r1) P Hb Hr Hp1 Hp2 Hk a a1 b b1 G Ta Tb L1) as K.
  split; [exact K|]. intros n. destruct G as ((g1 & Ga) & _).
  destruct (good_returns p I ram f1 ramb l (rS r1) Hb Hr _ a1 n (good_tampered p I ram f1 ramb l (rS r1) Hb Hr Hp1 g1 a a1 Ga Ta)) as (a2 & Ea).
  destruct (alike_run p P a1 b1 K n a2 Ea) as (b2 & Eb & L2). exists a2, b2. auto.
Qed.

(** ** A concrete case *)
(** The program of C133, on hosts that before every call put a new secret byte
    into the key and into A. *)
Definition rekeyed (s : Z) (cpu : mos6502 memory) : mos6502 memory :=
  mkMos6502 (match am_write Debug (amap cpu) 0x10 s with Ok (m, _) => m | Panic => amap cpu end)
    s (reg_x cpu) (reg_y cpu) (reg_sp cpu) (reg_pc cpu) (reg_ps cpu).
Definition cipher_bytes1 := bytes_at Debug key1 cipher_code 1 2 3 0xff ps0.
Definition cipher_bytes2 := bytes_at Debug key2 cipher_code 200 7 9 0xff ps0.

Lemma rekeyed_peek s cpu : plain_with kilobyte (amap cpu) -> u8 s -> plain_with kilobyte (amap (rekeyed s cpu)) /\
  forall q, u16 q -> peek Debug (amap (rekeyed s cpu)) q = if q =? 0x10 then s else peek Debug (amap cpu) q.
Proof.
  intros Hi Hs. destruct (plain_ram_bus Debug kilobyte) as (_ & W & _).
  destruct (W (amap cpu) 0x10 s Hi ltac:(unfold u16; lia) ltac:(unfold kilobyte; lia) Hs) as (m' & Ew & Hi' & Hk).
  unfold rekeyed. rewrite Ew. cbn [amap]. split; [exact Hi'|exact Hk].
Qed.
Lemma rekeyed_tampers f s cpu : code_byte f cipher_notes 0x10 = false -> plain_with kilobyte (amap cpu) -> regs_ok (regs_of cpu) -> u8 s ->
  tampers Debug (plain_with kilobyte) f cipher_notes 0xff cpu (rekeyed s cpu).
Proof.
  intros Hc Hi (_ & H2 & H3 & H4 & H5) Hs. destruct (rekeyed_peek s cpu Hi Hs) as (Hi' & Hk).
  split; [exact Hi'|]. split; [split; [exact Hs|]; split; [exact H2|]; split; [exact H3|]; split; [exact H4|exact H5]|].
  split; [reflexivity|]. split; [reflexivity|]. intros q Hq K. rewrite Hk by exact Hq. destruct (Z.eqb_spec q 0x10) as [->|]; [|reflexivity]. exfalso.
  destruct K as [K|(i & _ & K)]; [congruence|]. pose proof (stack_range (0xff - i)). lia.
Qed.
Lemma rekeyed_alike s1 s2 a b : plain_with kilobyte (amap a) -> plain_with kilobyte (amap b) -> u8 s1 -> u8 s2 ->
  look_alike Debug cipher_policy a b -> look_alike Debug cipher_policy (rekeyed s1 a) (rekeyed s2 b).
Proof.
  intros Ha Hb H1 H2 (L1 & L2 & L3 & L4). destruct (rekeyed_peek s1 a Ha H1) as (_ & K1). destruct (rekeyed_peek s2 b Hb H2) as (_ & K2).
  split; [exact L1|]. split; [exact L2|]. split.
  - change (rPC (regs_of (rekeyed s1 a))) with (rPC (regs_of a)). revert L3. unfold cipher_policy. cbn [public].
    repeat match goal with |- context [if ?c then _ else _] => destruct c end; intros L3;
      rewrite Forall_forall in *; intros x Hx; specialize (L3 x Hx); cbn [In] in Hx; intuition (subst x; exact L3).
  - intros q Hq Hs. rewrite K1, K2 by exact Hq. destruct (Z.eqb_spec q 0x10) as [->|]; [discriminate Hs|]. apply L4; assumption.
Qed.

Lemma sides_snoc {D} `{Device D} p I f1 f2 l base P (a b : mos6502 D) ns a1 b1 : side_by_side p I f1 f2 l base P a b ns a1 b1 ->
  forall a2 b2 n a3 b3, tampers p I f1 l base a1 a2 -> tampers p I f2 l base b1 b2 -> look_alike p P a2 b2 ->
  run p a2 n = Ok (Ready a3) -> run p b2 n = Ok (Ready b3) -> side_by_side p I f1 f2 l base P a b (ns ++ [n]) a3 b3.
Proof.
  induction 1 as [c d|c d c1 d1 c2 d2 c3 d3 k ns Tc Td L Ec Ed Hs IH]; intros a2 b2 n a3 b3 Ta Tb L' Ea Eb; cbn [app].
  - econstructor; [exact Ta|exact Tb|exact L'|exact Ea|exact Eb|constructor].
  - econstructor; [exact Tc|exact Td|exact L|exact Ec|exact Ed|]. eapply IH; eassumption.
Qed.
Lemma sides_sessions {D} `{Device D} p I f1 f2 l base P (a b : mos6502 D) ns a1 b1 : side_by_side p I f1 f2 l base P a b ns a1 b1 ->
  session p I f1 l base a ns a1 /\ session p I f2 l base b ns b1.
Proof. induction 1 as [|c d c1 d1 c2 d2 c3 d3 k ns Tc Td L Ec Ed Hs [I1 I2]]; split; econstructor; eassumption. Qed.

(** Calls of [run], each with a new secret for each machine. *)
Fixpoint rekeying (cpu : mos6502 memory) (calls : list (nat * Z)) : option (mos6502 memory) :=
  match calls with
  | [] => Some cpu
  | (n, s) :: rest => match run Debug (rekeyed s cpu) n with Ok (Ready cpu') => rekeying cpu' rest | _ => None end
  end.
Lemma rekeying_sides : forall calls a b ns0, Forall (fun c => u8 (snd (fst c)) /\ u8 (snd c)) calls ->
  side_by_side Debug (plain_with kilobyte) cipher_bytes1 cipher_bytes2 cipher_notes 0xff cipher_policy cipher1 cipher2 ns0 a b ->
  exists a' b' ns, rekeying a (map fst calls) = Some a' /\ rekeying b (map (fun c => (fst (fst c), snd c)) calls) = Some b' /\
    side_by_side Debug (plain_with kilobyte) cipher_bytes1 cipher_bytes2 cipher_notes 0xff cipher_policy cipher1 cipher2 ns a' b'.
Proof.
  induction calls as [|[[n s1] s2] calls IH]; intros a b ns0 F Hs; [exists a, b, ns0; auto|]. inversion F as [|? ? (F1 & F2) F']; subst. cbn in F1, F2.
  destruct (C142_new_secrets_never_show _ _ _ _ _ _ _ _ _ _ _ _ _ _ cipher1_checked cipher2_checked cipher_keeps ciphers_alike ns0 a b Hs) as (L & K).
  destruct (sides_sessions _ _ _ _ _ _ _ _ _ _ _ _ Hs) as (Sa & Sb).
  destruct (C139_the_host_cannot_derail_it _ _ _ _ _ _ _ _ _ _ cipher1_checked ns0 a Sa) as (Ia & Oa & _).
  destruct (C139_the_host_cannot_derail_it _ _ _ _ _ _ _ _ _ _ cipher2_checked ns0 b Sb) as (Ib & Ob & _).
  assert (Ta := rekeyed_tampers cipher_bytes1 s1 a ltac:(vm_compute; reflexivity) Ia Oa F1).
  assert (Tb := rekeyed_tampers cipher_bytes2 s2 b ltac:(vm_compute; reflexivity) Ib Ob F2).
  pose proof (rekeyed_alike s1 s2 a b Ia Ib F1 F2 L) as L1.
  destruct (K _ _ Ta Tb L1) as (_ & R). destruct (R n) as (a2 & b2 & Ea & Eb & _).
  destruct (IH a2 b2 _ F' (sides_snoc _ _ _ _ _ _ _ _ _ _ _ _ Hs _ _ _ _ _ Ta Tb L1 Ea Eb)) as (a' & b' & ns & E1 & E2 & S').
  exists a', b', ns. cbn [map rekeying fst snd]. rewrite Ea, Eb. auto.
Qed.

(** Whatever secrets come in and however the calls divide the time, both keep
    running and look alike; what they have computed differs. *)
Example C142_case :
  (forall calls, Forall (fun c => u8 (snd (fst c)) /\ u8 (snd c)) calls ->
    exists a b, rekeying cipher1 (map fst calls) = Some a /\ rekeying cipher2 (map (fun c => (fst (fst c), snd c)) calls) = Some b /\
      look_alike Debug cipher_policy a b) /\
  match rekeying cipher1 [(20%nat, 3); (60%nat, 4)], rekeying cipher2 [(20%nat, 200); (60%nat, 100)] with
  | Some a, Some b => peek Debug (amap a) 0x10 <> peek Debug (amap b) 0x10 /\ rPC (regs_of a) = rPC (regs_of b) /\ peek Debug (amap a) 0x200 = 2
  | _, _ => False
  end.
Proof.
  split.
  - intros calls F. destruct (rekeying_sides calls cipher1 cipher2 [] F (sides_end _ _ _ _ _ _ _ _ _)) as (a & b & ns & E1 & E2 & Hs).
    exists a, b. split; [exact E1|]. split; [exact E2|].
    exact (proj1 (C142_new_secrets_never_show _ _ _ _ _ _ _ _ _ _ _ _ _ _ cipher1_checked cipher2_checked cipher_keeps ciphers_alike ns a b Hs)).
  - vm_compute. repeat split; discriminate.
Qed.

Print Assumptions C142_new_secrets_never_show.
