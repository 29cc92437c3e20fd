(** C107: a piece of 6502 code can be replaced by another that does the same. *)
From Verif Require Import Base Arith ModelMap ModelStep ModelRegs6502 ModelCpu6502 ModelOperand ModelIsa6502
  ModelRun6502 SpecMap Link6502 ProofStep6502 ProofRun6502 ProofBus SpecInstr ProofInstr ProofFrame PropertiesFrame ProofProgram PropertiesLive ProofExchange Demo6502 PropertiesExchange PropertiesKnown.
From Verif Require Import Spec6502 SpecBus SpecFrame SpecLive SpecProgram SpecMove SpecExchange SpecReplace.

(** One instruction that stands elsewhere and neither reads nor writes the piece. *)
Lemma outside_step p start X Y (A B : mos6502 memory) mn m c b1 b2 n A' : differ_in_piece p start X Y A B ->
  about_to p A (peek p (amap A)) mn m c b1 b2 ->
  (forall d, 0 <= d < length_of m -> ~ block start (length X) ((reg_pc A + d) mod 65536)) ->
  (forall a, In a (reads_of mn m (regs_of A) (peek p (amap A)) b1 b2 ++ writes_of mn m (regs_of A) (peek p (amap A)) b1 b2) -> ~ block start (length X) a) ->
  observed_step p A = Ok (n, A') -> exists B', observed_step p B = Ok (n, B') /\ differ_in_piece p start X Y A' B'.
Proof.
  intros (PA & PB & Ok & Rg & Rm & Ln & BA & BB & Fr) Ab Hd Ha Es.
  assert (Ab0 := Ab). destruct Ab as (_ & _ & Hv & Hp & De & E1 & E2). destruct (about_bytes _ _ _ _ _ _ _ _ Ab0) as [U1 U2].
  assert (OkB : regs_ok (regs_of B)) by (rewrite Rg; exact Ok). destruct (machine_bytes p B PB) as [RB VB].
  assert (PcB : reg_pc B = reg_pc A) by (change (rPC (regs_of B) = rPC (regs_of A)); rewrite Rg; reflexivity).
  assert (Upc : u16 (reg_pc A)) by (destruct Ok as (_ & _ & _ & _ & K); exact K).
  assert (Lm : 1 <= length_of m) by (destruct m; cbn; lia).
  set (d1 := peek p (amap B) ((reg_pc A + 1) mod 65536)). set (d2 := peek p (amap B) ((reg_pc A + 2) mod 65536)).
  assert (AbB : about_to p B (peek p (amap B)) mn m c d1 d2).
  { unfold about_to. rewrite PcB. split; [exact OkB|]. split; [exact RB|]. split; [exact VB|]. split; [exact Hp|].
    split; [|split; reflexivity]. rewrite Fr; [exact De|]. specialize (Hd 0 ltac:(lia)). rewrite Z.add_0_r in Hd.
    unfold u16 in Upc. rewrite Z.mod_small in Hd by lia. exact Hd. }
  assert (Sb : same_bytes m b1 b2 d1 d2).
  { split; intros L; unfold d1, d2; rewrite ?E1, ?E2; symmetry; apply Fr, Hd; lia. }
  assert (K := execute_depends p mn m c (regs_of A) (regs_of B) (peek p (amap A)) (peek p (amap B)) b1 b2 d1 d2
    (decode_fits _ _ _ _ De) Ok Hv U1 U2 (or_introl (f_equal rPC (eq_sym Rg))) Sb).
  specialize (K ltac:(apply Forall_forall; intros x _; rewrite Rg; destruct x; reflexivity)).
  specialize (K ltac:(intros a H; apply Fr, Ha, in_or_app; left; exact H)).
  assert (Po := decode_possible _ _ _ _ De).
  assert (Ec := execute_cases p mn m c (regs_of A) (peek p (amap A)) b1 b2 Ok Hv U1 U2 Po).
  assert (Es2 := Es). rewrite (about_step _ _ _ _ _ _ _ _ Ab0) in Es2. rewrite (about_step _ _ _ _ _ _ _ _ AbB).
  unfold spec_outcome in Es2 |- *.
  destruct (execute p mn m c (regs_of A) (peek p (amap A)) b1 b2) as [e|] eqn:Ea; [|discriminate].
  destruct (execute p mn m c (regs_of B) (peek p (amap B)) d1 d2) as [e2|] eqn:Eb; [|contradiction].
  destruct (_ && _); [discriminate|]. destruct Ec as (e' & Ee & Wr). injection Ee as <-.
  destruct K as (K1 & K2 & K3 & _ & K5).
  destruct (execute_ok _ _ _ _ _ _ _ _ _ Hv Ok U1 U2 Ea) as [OkE St].
  destruct (store_all p (amap A) (e_stores e)) as [mA|] eqn:SA; [|discriminate]. injection Es2 as <- <-.
  rewrite <- K1. destruct (store_all p (amap B) (e_stores e)) as [mB|] eqn:SB.
  - exists (cpu_with (e_regs e2) mB). split; [rewrite K2; reflexivity|].
    destruct (stores_plain p _ _ _ PA St SA) as (PA' & RA' & FA'). destruct (stores_plain p _ _ _ PB St SB) as (PB' & RB' & FB').
    change (mkMos6502 mA _ _ _ _ _ _) with (cpu_with (e_regs e) mA).
    assert (Out : forall a, block start (length X) a -> ~ In a (map fst (e_stores e))).
    { intros a Hp' H. rewrite Wr in H. apply (Ha a); [apply in_or_app; right; exact H|exact Hp']. }
    unfold differ_in_piece. rewrite !regs_of_cpu_with. cbn [amap cpu_with].
    split; [exact PA'|]. split; [exact PB'|]. split; [exact OkE|]. split.
    { symmetry. apply regs_parts; [apply K3; rewrite Rg; reflexivity|]. intros x. rewrite Forall_forall in K5.
      destruct (part_dec x (sets mn m)) as [H|H]; [exact (K5 x H)|].
      refine (same_trans _ _ _ _ (unset_same _ _ _ _ _ _ _ _ _ Po Ea x H) _). rewrite <- Rg. apply same_sym.
      exact (unset_same _ _ _ _ _ _ _ _ _ Po Eb x H). }
    split; [intros a; rewrite RA', RB'; apply Rm|]. split; [exact Ln|]. split; [|split].
    + refine (bytes_from_congr _ _ _ _ _ BA). intros k Hk. rewrite FA', stored_other; [reflexivity|]. apply Out. unfold block. lia.
    + refine (bytes_from_congr _ _ _ _ _ BB). intros k Hk. rewrite FB', stored_other; [reflexivity|]. apply Out. unfold block. lia.
    + intros a Hp'. rewrite FA', FB'. apply stored_congr, Fr, Hp'.
  - exfalso. apply (stores_panic_iff p _ _ PB St) in SB. destruct SB as (a & H1 & H2).
    assert (store_all p (amap A) (e_stores e) = Panic) by (apply (stores_panic_iff p _ _ PA St); exists a; split; [exact H1|]; rewrite <- Rm; exact H2).
    congruence.
Qed.

Lemma steps_function p k t (cpu cpu1 : mos6502 memory) : steps p k t cpu cpu1 -> forall t2 cpu2, steps p k t2 cpu cpu2 -> t2 = t /\ cpu2 = cpu1.
Proof.
  induction 1 as [cpu|k t n cpu cpux cpu1 E X IH]; intros t2 cpu2 Y; inversion Y as [|k' t' n' a cpuy b E' Y']; subst; [auto|].
  rewrite E in E'. injection E' as <- <-. destruct (IH _ _ Y') as [-> ->]. auto.
Qed.

(** ** C107 *)
(** A run that comes [n] times to the piece and otherwise leaves its bytes
    alone: with the piece replaced by one that does the same, the run has as many
    visits and the same instructions in between, takes the time of the other piece
    at each visit, and ends with the same registers and, but for the piece, the
    same memory. *)
Theorem C107_replace : forall p start X Y (when : mos6502 memory -> Prop) kx tx ky ty n k t (cpu cpu' cpu2 : mos6502 memory),
  interchangeable p start X Y when kx tx ky ty ->
  differ_in_piece p start X Y cpu cpu2 ->
  visits p start (length X) when kx tx n k t cpu cpu' ->
  runs p (k + n * kx) (t + n * tx) cpu cpu' /\
  exists cpu2', runs p (k + n * ky) (t + n * ty) cpu2 cpu2' /\ differ_in_piece p start X Y cpu' cpu2'.
Proof.
  intros p start X Y when kx tx ky ty n k t A A' B Hi Hd H.
  assert (R : forall k t (A A' : mos6502 memory), steps p k t A A' -> runs p k t A A').
  { intros k0 t0 A0 A0' S'. split; [exact S'|]. apply run_ready_iff. exists k0, t0. split; [exact S'|]. split; [lia|left; reflexivity]. }
  assert (K : steps p (k + n * kx) (t + n * tx) A A' /\
    exists B', steps p (k + n * ky) (t + n * ty) B B' /\ differ_in_piece p start X Y A' B').
  { revert B Hd. induction H as [A|n k t A A1 A' Pc W St H IH|mn m c b1 b2 d n k t A A1 A' Ab Ho Ha Es H IH]; intros B Hd.
    - split; [constructor|]. exists B. split; [constructor|exact Hd].
    - destruct (Hi A B Hd Pc W) as (A1' & B1 & SA & SB & Hd1). destruct (steps_function _ _ _ _ _ St _ _ SA) as [_ ->].
      destruct (IH B1 Hd1) as (S1 & B' & S' & D'). split.
      + replace (k + S n * kx)%nat with (kx + (k + n * kx))%nat by lia. replace (t + S n * tx)%nat with (tx + (t + n * tx))%nat by lia.
        exact (steps_join _ _ _ _ _ _ _ _ St S1).
      + exists B'. split; [|exact D']. replace (k + S n * ky)%nat with (ky + (k + n * ky))%nat by lia.
        replace (t + S n * ty)%nat with (ty + (t + n * ty))%nat by lia. exact (steps_join _ _ _ _ _ _ _ _ SB S').
    - destruct (outside_step p start X Y A B mn m c b1 b2 d A1 Hd Ab Ho Ha Es) as (B1 & E1 & Hd1).
      destruct (IH B1 Hd1) as (S1 & B' & S' & D'). rewrite <- !Nat.add_assoc. split.
      + eapply steps_cons; eassumption.
      + exists B'. split; [|exact D']. eapply steps_cons; eassumption. }
  destruct K as (K1 & B' & K2 & K3). split; [apply R, K1|]. exists B'. split; [apply R, K2|exact K3].
Qed.

(** ** From the specification machine to machines with plain memory *)
Lemma exec_plain p ram k t r f r' f' : exec p ram k t r f r' f' -> forall cpu : mos6502 memory,
  plain_map (amap cpu) -> regs_ok r -> regs_of cpu = r -> (forall a, peek p (amap cpu) a = f a) -> (forall a, ram a -> ram_at (amap cpu) a) ->
  exists cpu', steps p k t cpu cpu' /\ plain_map (amap cpu') /\ regs_ok r' /\ regs_of cpu' = r' /\
    (forall a, ram_at (amap cpu') a <-> ram_at (amap cpu) a) /\ forall a, peek p (amap cpu') a = f' a.
Proof.
  induction 1 as [r f|k t r f e r1 f1 E F X IH]; intros cpu Hp Ho Er Hf Hm.
  - exists cpu. split; [constructor|]. split; [exact Hp|]. split; [exact Ho|]. split; [exact Er|]. split; [reflexivity|exact Hf].
  - destruct (machine_bytes p cpu Hp) as [Rb Vb].
    assert (Hb : bus_reads p (amap cpu) f) by (intros a Ha; rewrite <- Hf; apply Rb, Ha).
    assert (Hv : byte_valued f) by (intros a Ha; rewrite <- Hf; apply Vb, Ha).
    destruct (step_ok p r f e Hv Ho E) as [K1 K2].
    assert (N := ProofStep6502.next_refines p cpu f ltac:(rewrite Er; exact Ho) Hb Hv). rewrite Er in N. unfold spec_outcome in N. rewrite E in N.
    destruct (store_all p (amap cpu) (e_stores e)) as [m'|] eqn:Es.
    + destruct (stores_plain p _ _ _ Hp K2 Es) as (P' & R' & F').
      destruct (IH (cpu_with (e_regs e) m')) as (cpu' & S' & Q1 & Q2 & Q3 & Q4 & Q5).
      * exact P'.
      * exact K1.
      * apply regs_of_cpu_with.
      * intros a. cbn [amap cpu_with]. rewrite F'. apply stored_congr, Hf.
      * intros a Ha. cbn [amap cpu_with]. apply R', Hm, Ha.
      * exists cpu'. split; [eapply steps_cons; [exact N|exact S']|]. split; [exact Q1|]. split; [exact Q2|]. split; [exact Q3|].
        split; [|exact Q5]. intros a. rewrite Q4. apply R'.
    + exfalso. apply (stores_panic_iff p _ _ Hp K2) in Es. destruct Es as (a & H1 & H2). apply H2, Hm.
      rewrite Forall_forall in F. apply in_map_iff in H1. destruct H1 as (w & <- & Hw). exact (F w Hw).
Qed.

(** Pieces that have the same effect on registers and memory. *)
Lemma same_effect p start X Y (when : mos6502 memory -> Prop) (ram : Z -> Prop) kx tx ky ty : 
  (forall cpu, when cpu -> forall a, ram a -> ram_at (amap cpu) a) ->
  (forall a, ram a -> ~ block start (length X) a) ->
  (forall A R S Q P f g, regs_ok (mkRegs A R S Q start P) -> bytes_from f start X -> bytes_from g start Y ->
   (forall a, ram a -> g a = f a) ->
   exists r' l, (forall w, In w l -> ram (fst w)) /\
     exec p ram kx tx (mkRegs A R S Q start P) f r' (stored f l) /\ exec p ram ky ty (mkRegs A R S Q start P) g r' (stored g l)) ->
  interchangeable p start X Y when kx tx ky ty.
Proof.
  intros Hw Hb Hx C B (PA & PB & Ok & Rg & Rm & Ln & BA & BB & Fr) Hpc W.
  destruct (regs_of C) as [a x y s pc P] eqn:Er. assert (pc = start) by (change (rPC (mkRegs a x y s pc P) = start); rewrite <- Er; exact Hpc). subst pc.
  destruct (Hx a x y s P _ _ Ok BA BB (fun b Hr => Fr b (Hb b Hr))) as (r' & l & Hl & XA & XB).
  destruct (exec_plain _ _ _ _ _ _ _ _ XA C PA Ok Er (fun _ => eq_refl) (Hw C W)) as (A' & SA & PA' & OkA' & RA' & MA' & FA').
  destruct (exec_plain _ _ _ _ _ _ _ _ XB B PB Ok Rg (fun _ => eq_refl) (fun a Ha => proj2 (Rm a) (Hw C W a Ha))) as (B' & SB & PB' & OkB' & RB' & MB' & FB').
  assert (Out : forall b, block start (length X) b -> ~ In b (map fst l)).
  { intros b Hk H. apply in_map_iff in H. destruct H as (w & <- & Hin). exact (Hb _ (Hl w Hin) Hk). }
  exists A', B'. split; [exact SA|]. split; [exact SB|]. split; [exact PA'|]. split; [exact PB'|]. split; [rewrite RA'; exact OkA'|].
  split; [congruence|]. split; [intros b; rewrite MA', MB'; apply Rm|]. split; [exact Ln|]. split; [|split].
  - refine (bytes_from_congr _ _ _ _ _ BA). intros k Hk. rewrite FA', stored_other; [reflexivity|]. apply Out. unfold block. lia.
  - refine (bytes_from_congr _ _ _ _ _ BB). intros k Hk. rewrite FB', stored_other; [reflexivity|]. apply Out. unfold block. lia.
  - intros b Hk. rewrite FA', FB'. apply stored_congr, Fr, Hk.
Qed.
Lemma same_quiet p start X Y kx tx ky ty :
  (forall A R S Q P f g, regs_ok (mkRegs A R S Q start P) -> bytes_from f start X -> bytes_from g start Y ->
   exists r', exec p (fun _ => False) kx tx (mkRegs A R S Q start P) f r' f /\ exec p (fun _ => False) ky ty (mkRegs A R S Q start P) g r' g) ->
  interchangeable p start X Y (fun _ => True) kx tx ky ty.
Proof.
  intros H. apply (same_effect p start X Y (fun _ => True) (fun _ => False)); [intros ? ? ? []|intros ? []|].
  intros A R S Q P f g Ok BA BB _. destruct (H A R S Q P f g Ok BA BB) as (r' & XA & XB). exists r', []. split; [intros w []|]. auto.
Qed.

(** ** Pieces that do the same, for all operands, registers and memories *)
Lemma pc_at a k : 0 <= a -> 0 <= k -> a + k <= 0xffff -> (a + k) mod 65536 = a + k.
Proof. intros. apply Z.mod_small. lia. Qed.
Lemma word_bytes a : word (low a) (high a) = a.
Proof. unfold word, low, high. lia. Qed.
Lemma exec_two p ram r f t1 r1 f1 t2 r2 f2 : exec p ram 1 t1 r f r1 f1 -> exec p ram 1 t2 r1 f1 r2 f2 -> exec p ram 2 (t1 + t2) r f r2 f2.
Proof. intros X Y. exact (exec_app _ _ _ _ _ _ _ _ X _ _ _ _ Y). Qed.

(** LDA #n / TAX and LDX #n / TXA. *)
Theorem C107_load_both : forall p start n, 0 <= start <= 0xfffa ->
  interchangeable p start [0xa9; n; 0xaa] [0xa2; n; 0x8a] (fun _ => True) 2 4 2 4.
Proof.
  intros p start n Hs. apply same_quiet. intros A R S Q P f g Ok (A1 & A2 & A3 & _) (B1 & B2 & B3 & _).
  replace (start + 1 + 1) with (start + 2) in * by lia. exists (mkRegs n n S Q (start + 2 + 1) (nzf P n)). split.
  - apply (exec_two p _ _ f 2 (mkRegs n R S Q (start + 2) (nzf P n)) f 2).
    + eapply one_quiet; [lia|exact A1|reflexivity|]. rewrite A2, <- (pc_at start 2) by lia. reflexivity.
    + eapply one_quiet; [lia|exact A3|reflexivity|]. rewrite <- (pc_at (start + 2) 1) by lia. reflexivity.
  - apply (exec_two p _ _ g 2 (mkRegs A n S Q (start + 2) (nzf P n)) g 2).
    + eapply one_quiet; [lia|exact B1|reflexivity|]. rewrite B2, <- (pc_at start 2) by lia. reflexivity.
    + eapply one_quiet; [lia|exact B3|reflexivity|]. rewrite <- (pc_at (start + 2) 1) by lia. reflexivity.
Qed.

(** TAX / TXA and TAX / NOP. *)
Theorem C107_there_and_back : forall p start, 0 <= start <= 0xfffb ->
  interchangeable p start [0xaa; 0x8a] [0xaa; 0xea] (fun _ => True) 2 4 2 4.
Proof.
  intros p start Hs. apply same_quiet. intros A R S Q P f g Ok (A1 & A2 & _) (B1 & B2 & _).
  exists (mkRegs A A S Q (start + 1 + 1) (nzf P A)). split.
  - apply (exec_two p _ _ f 2 (mkRegs A A S Q (start + 1) (nzf P A)) f 2).
    + eapply one_quiet; [lia|exact A1|reflexivity|]. rewrite <- (pc_at start 1) by lia. reflexivity.
    + eapply one_quiet; [lia|exact A2|reflexivity|]. rewrite <- (pc_at (start + 1) 1) by lia. reflexivity.
  - apply (exec_two p _ _ g 2 (mkRegs A A S Q (start + 1) (nzf P A)) g 2).
    + eapply one_quiet; [lia|exact B1|reflexivity|]. rewrite <- (pc_at start 1) by lia. reflexivity.
    + eapply one_quiet; [lia|exact B2|reflexivity|]. rewrite <- (pc_at (start + 1) 1) by lia. reflexivity.
Qed.

(** ASL A / NOP and CLC / ROL A. *)
Theorem C107_shift : forall p start, 0 <= start <= 0xfffb ->
  interchangeable p start [0x0a; 0xea] [0x18; 0x2a] (fun _ => True) 2 4 2 4.
Proof.
  intros p start Hs. apply same_quiet. intros A R S Q P f g Ok (A1 & A2 & _) (B1 & B2 & _).
  set (D := (2 * A) mod 256). exists (mkRegs D R S Q (start + 1 + 1) (with_c (nzf P D) (128 <=? A))). split.
  - apply (exec_two p _ _ f 2 (mkRegs D R S Q (start + 1) (with_c (nzf P D) (128 <=? A))) f 2).
    + eapply one_quiet; [lia|exact A1|reflexivity|]. rewrite <- (pc_at start 1) by lia. reflexivity.
    + eapply one_quiet; [lia|exact A2|reflexivity|]. rewrite <- (pc_at (start + 1) 1) by lia. reflexivity.
  - apply (exec_two p _ _ g 2 (mkRegs A R S Q (start + 1) (with_c P false)) g 2).
    + eapply one_quiet; [lia|exact B1|reflexivity|]. rewrite <- (pc_at start 1) by lia. reflexivity.
    + eapply one_quiet; [lia|exact B2|reflexivity|]. rewrite <- (pc_at (start + 1) 1) by lia.
      cbn [execute modify_op rA rP with_c ps_carry]. unfold shift_with, spec_rol. cbn [bit]. rewrite Z.add_0_r. reflexivity.
Qed.

(** LDA #0 and AND #0. *)
Theorem C107_clear : forall p start, 0 <= start <= 0xfffb ->
  interchangeable p start [0xa9; 0] [0x29; 0] (fun _ => True) 1 2 1 2.
Proof.
  intros p start Hs. apply same_quiet. intros A R S Q P f g Ok (A1 & A2 & _) (B1 & B2 & _).
  exists (mkRegs 0 R S Q (start + 2) (nzf P 0)). split.
  - eapply one_quiet; [lia|exact A1|reflexivity|]. rewrite A2, <- (pc_at start 2) by lia. reflexivity.
  - eapply one_quiet; [lia|exact B1|reflexivity|]. rewrite B2, <- (pc_at start 2) by lia.
    unfold execute, read_op, operand_value. cbn [rA setNZ setN setZ]. rewrite Z.land_0_r. reflexivity.
Qed.

(** JMP to the next instruction and three NOPs. *)
Theorem C107_jump : forall p start, 0 <= start <= 0xfffa ->
  interchangeable p start [0x4c; low (start + 3); high (start + 3)] [0xea; 0xea; 0xea] (fun _ => True) 1 3 3 6.
Proof.
  intros p start Hs. apply same_quiet. intros A R S Q P f g Ok (A1 & A2 & A3 & _) (B1 & B2 & B3 & _).
  replace (start + 1 + 1) with (start + 2) in * by lia. exists (mkRegs A R S Q (start + 3) P). split.
  - eapply one_quiet; [lia|exact A1|reflexivity|]. rewrite A2, A3. cbn [execute]. rewrite word_bytes. reflexivity.
  - refine (exec_app p _ 1 2 _ g (mkRegs A R S Q (start + 1) P) g _ 2 4 _ g _).
    { eapply one_quiet; [lia|exact B1|reflexivity|]. rewrite <- (pc_at start 1) by lia. reflexivity. }
    apply (exec_two p _ _ g 2 (mkRegs A R S Q (start + 2) P) g 2).
    + eapply one_quiet; [lia|exact B2|reflexivity|]. replace (start + 2) with (start + 1 + 1) by lia. rewrite <- (pc_at (start + 1) 1) by lia. reflexivity.
    + eapply one_quiet; [lia|exact B3|reflexivity|]. replace (start + 3) with (start + 2 + 1) by lia. rewrite <- (pc_at (start + 2) 1) by lia. reflexivity.
Qed.

(** STA z / LDA z and STA z / ORA #0, where the byte at z is RAM and not part of
    the piece. *)
Theorem C107_store_load : forall p start z, 0 <= start <= 0xfff9 -> u8 z -> ~ block start 4 z ->
  interchangeable p start [0x85; z; 0xa5; z] [0x85; z; 0x09; 0] (fun cpu => ram_at (amap cpu) z) 2 6 2 5.
Proof.
  intros p start z Hs Hz Hb. apply (same_effect p start _ _ _ (fun a => a = z)).
  - intros cpu H a ->. exact H.
  - intros a ->. exact Hb.
  - intros A R S Q P f g Ok (A1 & A2 & A3 & A4 & _) (B1 & B2 & B3 & B4 & _) _.
    replace (start + 1 + 1) with (start + 2) in * by lia. unfold block in Hb. change (Z.of_nat 4) with 4 in Hb. unfold u8 in Hz.
    exists (mkRegs A R S Q (start + 2 + 2) (nzf P A)), [(z, A)]. split; [intros w [<-|[]]; reflexivity|].
    assert (Store : forall f, f start = 0x85 -> f (start + 1) = z ->
      exec p (fun a => a = z) 1 3 (mkRegs A R S Q start P) f (mkRegs A R S Q (start + 2) P) (stored f [(z, A)])).
    { intros h H1 H2. apply (exec_one p _ _ h 0x85 Sta ZeroPage 3 (mkEffect (mkRegs A R S Q (start + 2) P) [(z, A)] 3)); try reflexivity.
      - cbn [rPC]. lia.
      - exact H1.
      - cbn [rPC]. rewrite H2. rewrite <- (pc_at start 2) by lia. reflexivity.
      - constructor; [reflexivity|constructor]. }
    split.
    + apply (exec_two p _ _ f 3 _ (stored f [(z, A)]) 3 _ _ (Store f A1 A2)).
      eapply one_quiet; [lia|cbn; unfold store1; cbn [fst snd]; replace (start + 2 =? z) with false by lia; exact A3|reflexivity|].
      unfold stored. cbn [fold_left]. rewrite !store1_other by lia. replace (start + 2 + 1) with (start + 2 + 1) by lia. rewrite A4.
      unfold execute, read_op, operand_value, operand_address. rewrite store1_same, <- (pc_at (start + 2) 2) by lia. reflexivity.
    + apply (exec_two p _ _ g 3 _ (stored g [(z, A)]) 2 _ _ (Store g B1 B2)).
      eapply one_quiet; [lia|cbn; unfold store1; cbn [fst snd]; replace (start + 2 =? z) with false by lia; exact B3|reflexivity|].
      unfold stored. cbn [fold_left]. rewrite !store1_other by lia. rewrite B4.
      unfold execute, read_op, operand_value. cbn [rA setNZ setN setZ]. rewrite Z.lor_0_r, <- (pc_at (start + 2) 2) by lia. reflexivity.
Qed.

Print Assumptions C107_replace.
Print Assumptions C107_load_both.
Print Assumptions C107_there_and_back.
Print Assumptions C107_shift.
Print Assumptions C107_clear.
Print Assumptions C107_jump.
Print Assumptions C107_store_load.

(** ** A concrete case *)
(** LDX #2 / STA 0x10 / LDA 0x10 / DEX / BNE to the STA, in ROM, and the same with
    ORA #0 for LDA 0x10: the piece is passed twice, which saves two cycles. *)
Definition piece_x : list Z := [0x85; 0x10; 0xa5; 0x10].
Definition piece_y : list Z := [0x85; 0x10; 0x09; 0].
Definition piece_machine (l : list Z) : mos6502 memory :=
  machine [] ([0xa2; 2] ++ l ++ [0xca; 0xd0; 0xfb; 0xea; 0xea; 0xea]) 77 0 0 0xff ps0.

Fixpoint run_k (p : profile) (k : nat) (cpu : mos6502 memory) : option (nat * mos6502 memory) :=
  match k with
  | O => Some (0%nat, cpu)
  | S k' => match observed_step p cpu with
            | Ok (n, cpu1) => match run_k p k' cpu1 with Some (t, cpu') => Some ((n + t)%nat, cpu') | None => None end
            | Panic => None
            end
  end.
Lemma run_k_sound p k : forall cpu t cpu', run_k p k cpu = Some (t, cpu') -> steps p k t cpu cpu'.
Proof.
  induction k as [|k IH]; intros cpu t cpu' E; cbn [run_k] in E; [injection E as <- <-; constructor|].
  destruct (observed_step p cpu) as [[n c1]|] eqn:E1; [|discriminate]. destruct (run_k p k c1) as [[t1 c2]|] eqn:E2; [|discriminate].
  injection E as <- <-. eapply steps_cons; [exact E1|apply IH, E2].
Qed.

Definition in_piece (start : Z) (size : nat) (a : Z) : bool := (start <=? a) && (a <? start + Z.of_nat size).
(** Runs, checked by computation. *)
Fixpoint visits_of (p : profile) (start : Z) (size kx tx : nat) (l : list bool) (cpu : mos6502 memory) : option (nat * nat * nat * mos6502 memory) :=
  match l with
  | [] => Some (0%nat, 0%nat, 0%nat, cpu)
  | true :: l =>
      if reg_pc cpu =? start then
        match run_k p kx cpu with
        | Some (t1, cpu1) =>
            if Nat.eqb t1 tx then
              match visits_of p start size kx tx l cpu1 with Some (n, k, t, cpu') => Some (S n, k, t, cpu') | None => None end
            else None
        | None => None
        end
      else None
  | false :: l =>
      let f := peek p (amap cpu) in let pc := reg_pc cpu in
      let b1 := f ((pc + 1) mod 65536) in let b2 := f ((pc + 2) mod 65536) in
      match decode (f pc) with
      | Some (mn, m, c) =>
          if (pc <=? 0xfffd) && (pc + length_of m <=? start) || (start + Z.of_nat size <=? pc) && (pc <=? 0xfffd) then
            if forallb (fun a => negb (in_piece start size a)) (reads_of mn m (regs_of cpu) f b1 b2 ++ writes_of mn m (regs_of cpu) f b1 b2) then
              match observed_step p cpu with
              | Ok (d, cpu1) => match visits_of p start size kx tx l cpu1 with Some (n, k, t, cpu') => Some (n, S k, (d + t)%nat, cpu') | None => None end
              | Panic => None
              end
            else None
          else None
      | None => None
      end
  end.
Lemma next_good p (cpu : mos6502 memory) n cpu1 : plain_map (amap cpu) -> regs_ok (regs_of cpu) -> observed_step p cpu = Ok (n, cpu1) ->
  plain_map (amap cpu1) /\ regs_ok (regs_of cpu1) /\ forall a, ram_at (amap cpu1) a <-> ram_at (amap cpu) a.
Proof.
  intros H1 H2 E. destruct (machine_step_inv p cpu n cpu1 H1 H2 E) as (e & Ee & Ra).
  destruct (machine_step p cpu e H1 H2 Ee Ra) as (c' & E' & _ & P' & R' & M' & _). rewrite E in E'. injection E' as _ <-. auto.
Qed.
Lemma steps_good p k t (cpu cpu1 : mos6502 memory) : steps p k t cpu cpu1 -> plain_map (amap cpu) -> regs_ok (regs_of cpu) ->
  plain_map (amap cpu1) /\ regs_ok (regs_of cpu1) /\ forall a, ram_at (amap cpu1) a <-> ram_at (amap cpu) a.
Proof.
  induction 1 as [cpu|k t n cpu cpux cpu1 E X IH]; intros H1 H2; [split; [exact H1|split; [exact H2|reflexivity]]|].
  destruct (next_good _ _ _ _ H1 H2 E) as (P & R & M). destruct (IH P R) as (P' & R' & M'). split; [exact P'|]. split; [exact R'|].
  intros a. rewrite M'. apply M.
Qed.
Lemma visits_of_sound p start size (z : Z) kx tx l : forall cpu n k t cpu', plain_map (amap cpu) -> regs_ok (regs_of cpu) -> ram_at (amap cpu) z ->
  visits_of p start size kx tx l cpu = Some (n, k, t, cpu') -> visits p start size (fun c => ram_at (amap c) z) kx tx n k t cpu cpu'.
Proof.
  induction l as [|[|] l IH]; intros cpu n k t cpu' Hp Hr Hz E; cbn [visits_of] in E.
  - injection E as <- <- <- <-. constructor.
  - destruct (reg_pc cpu =? start) eqn:B; [|discriminate]. apply Z.eqb_eq in B.
    destruct (run_k p kx cpu) as [[t1 c1]|] eqn:E1; [|discriminate]. apply run_k_sound in E1.
    destruct (Nat.eqb t1 tx) eqn:Et; [|discriminate]. apply Nat.eqb_eq in Et. subst t1.
    destruct (visits_of p start size kx tx l c1) as [[[[n1 k1] t1] c2]|] eqn:Er; [|discriminate]. injection E as <- <- <- <-.
    destruct (steps_good _ _ _ _ _ E1 Hp Hr) as (P1 & R1 & M1).
    eapply visits_piece; [exact B|exact Hz|exact E1|]. apply IH; [exact P1|exact R1|apply M1, Hz|exact Er].
  - cbv zeta in E. destruct (decode (peek p (amap cpu) (reg_pc cpu))) as [[[mn m] c]|] eqn:Ed; [|discriminate].
    destruct ((_ && _) || (_ && _)) eqn:B1 in E; [|discriminate]. destruct (forallb _ _) eqn:B2 in E; [|discriminate].
    destruct (observed_step p cpu) as [[d cpu1]|] eqn:E1; [|discriminate].
    destruct (visits_of p start size kx tx l cpu1) as [[[[n1 k1] t1] c2]|] eqn:Er; [|discriminate]. injection E as <- <- <- <-.
    destruct (machine_bytes p cpu Hp) as [Rb Vb]. destruct (next_good _ _ _ _ Hp Hr E1) as (P1 & R1 & M1).
    assert (Upc : 0 <= reg_pc cpu) by (destruct Hr as (_ & _ & _ & _ & K); unfold u16 in K; cbn [regs_of rPC] in K; lia).
    eapply visits_other; [| | |exact E1|apply IH; [exact P1|exact R1|apply M1, Hz|exact Er]].
    + split; [exact Hr|]. split; [exact Rb|]. split; [exact Vb|]. split; [right; lia|]. split; [exact Ed|]. split; reflexivity.
    + intros i Hd. unfold block. assert (length_of m <= 3) by (destruct m; cbn; lia).
      destruct (Z_lt_dec (reg_pc cpu + i) 65536); [rewrite Z.mod_small by lia; lia|].
      exfalso. lia.
    + rewrite forallb_forall in B2. intros a Ha. specialize (B2 a Ha). unfold in_piece in B2. unfold block. lia.
Qed.

Lemma piece_differ p : differ_in_piece p 0x8002 piece_x piece_y (piece_machine piece_x) (piece_machine piece_y).
Proof.
  assert (P1 : plain_map (amap (piece_machine piece_x)) /\ regs_ok (regs_of (piece_machine piece_x))) by (apply machine_plain; vm_compute; reflexivity).
  assert (P2 : plain_map (amap (piece_machine piece_y)) /\ regs_ok (regs_of (piece_machine piece_y))) by (apply machine_plain; vm_compute; reflexivity).
  split; [apply P1|]. split; [apply P2|]. split; [apply P1|]. split; [reflexivity|]. split; [|split; [reflexivity|split; [|split]]].
  - intros a. unfold ram_at, piece_machine, machine. cbn [amap]. split; intros (e & [<-|[<-|[]]] & H2 & H3); try discriminate H3;
      (eexists; split; [left; reflexivity|]; split; [exact H2|exact H3]).
  - destruct p; vm_compute; repeat split; reflexivity.
  - destruct p; vm_compute; repeat split; reflexivity.
  - intros a Ha. unfold block in Ha. change (Z.of_nat (length piece_x)) with 4 in Ha.
    destruct (Z_le_dec 0x8000 a) as [L1|L1]; [destruct (Z_le_dec a 0x800b) as [L2|L2]|].
    + assert (C : a = 0x8000 \/ a = 0x8001 \/ a = 0x8006 \/ a = 0x8007 \/ a = 0x8008 \/ a = 0x8009 \/ a = 0x800a \/ a = 0x800b) by lia.
      destruct C as [->|[->|[->|[->|[->|[->|[->| ->]]]]]]]; destruct p; vm_compute; reflexivity.
    + unfold peek, piece_machine, machine. cbn [amap am_read app]. unfold key_contains. cbn [range_lo range_hi length piece_x piece_y app].
      replace ((0 <=? a) && (a <=? 0x3ff)) with false by lia.
      replace ((0x8000 <=? a) && (a <=? 0x8000 + Z.of_nat 12 - 1)) with false by lia. reflexivity.
    + unfold peek, piece_machine, machine. cbn [amap am_read app]. unfold key_contains. cbn [range_lo range_hi length piece_x piece_y app].
      destruct ((0 <=? a) && (a <=? 0x3ff)); [reflexivity|].
      replace ((0x8000 <=? a) && (a <=? 0x8000 + Z.of_nat 12 - 1)) with false by lia. reflexivity.
Qed.

Example C107_case : forall p, exists cpu' cpu2',
  visits p 0x8002 (length piece_x) (fun c => ram_at (amap c) 0x10) 2 6 2 5 11 (piece_machine piece_x) cpu' /\
  runs p 9 23 (piece_machine piece_x) cpu' /\ runs p 9 21 (piece_machine piece_y) cpu2' /\
  regs_of cpu2' = regs_of cpu' /\ reg_pc cpu2' = 0x8009 /\ peek p (amap cpu2') 0x10 = 77.
Proof.
  intros p. assert (D := piece_differ p). assert (D0 := D). destruct D0 as (P1 & _ & R1 & _).
  assert (Rz : ram_at (amap (piece_machine piece_x)) 0x10).
  { unfold ram_at, piece_machine, machine. cbn [amap]. eexists. split; [left; reflexivity|]. split; [cbn; lia|reflexivity]. }
  assert (E : match visits_of p 0x8002 (length piece_x) 2 6 [false; true; false; false; true; false; false] (piece_machine piece_x) with
    | Some (n, k, t, c) => Nat.eqb n 2 && Nat.eqb k 5 && Nat.eqb t 11 && (reg_pc c =? 0x8009) && (peek p (amap c) 0x10 =? 77) | None => false end = true)
    by (destruct p; vm_compute; reflexivity).
  destruct (visits_of _ _ _ _ _ _ _) as [[[[n k] t] c]|] eqn:Ep in E; [|discriminate].
  apply (visits_of_sound _ _ _ 0x10 _ _ _ _ _ _ _ _ P1 R1 Rz) in Ep. rewrite !andb_true_iff in E. destruct E as [[[[E1 E2] E3] E4] E5].
  apply Nat.eqb_eq in E1, E2, E3. subst n k t.
  assert (Hb : ~ block 0x8002 4 0x10) by (unfold block; lia).
  destruct (C107_replace p 0x8002 piece_x piece_y _ 2 6 2 5 2 5 11 (piece_machine piece_x) c (piece_machine piece_y)
    (C107_store_load p 0x8002 0x10 ltac:(lia) ltac:(unfold u8; lia) Hb) D Ep) as (X1 & c2 & X2 & (_ & _ & _ & Rg & _ & _ & _ & _ & Fr)).
  exists c, c2. split; [exact Ep|]. split; [exact X1|]. split; [exact X2|]. split; [exact Rg|]. split.
  - change (rPC (regs_of c2) = 0x8009). rewrite Rg. change (reg_pc c = 0x8009). lia.
  - rewrite Fr; [lia|]. unfold block. change (Z.of_nat (length piece_x)) with 4. lia.
Qed.
