(** C99: 6502 instructions that have nothing to do with each other can be exchanged. *)
From Verif Require Import Base Arith ModelMap ModelStep ModelRegs6502 ModelCpu6502 ModelOperand ModelIsa6502
  ModelRun6502 SpecMap Link6502 ProofStep6502 ProofRun6502 ProofBus SpecInstr ProofInstr ProofFrame PropertiesFrame ProofProgram PropertiesLive ProofExchange Demo6502.
From Verif Require Import Spec6502 SpecBus SpecFrame SpecLive SpecProgram SpecMove SpecExchange.

Lemma regs_parts r r2 : rPC r = rPC r2 -> (forall x, same r r2 x) -> r = r2.
Proof.
  intros Hp H. destruct r as [a x y s pc [ ]], r2 as [a2 x2 y2 s2 pc2 [ ]]. cbn [rPC] in Hp.
  assert (R1 := H (Reg RA)). assert (R2 := H (Reg RX)). assert (R3 := H (Reg RY)). assert (R4 := H (Reg RS)).
  assert (F1 := H (Flag FC)). assert (F2 := H (Flag FZ)). assert (F3 := H (Flag FI)). assert (F4 := H (Flag FD)).
  assert (F5 := H (Flag FB)). assert (F6 := H (Flag FU)). assert (F7 := H (Flag FV)). assert (F8 := H (Flag FN)).
  cbn in *. congruence.
Qed.

(** ** Stores on a plain map *)
Lemma stores_plain p : forall l m m', plain_map m -> stores_ok l -> store_all p m l = Ok m' ->
  plain_map m' /\ (forall a, ram_at m' a <-> ram_at m a) /\ forall a, peek p m' a = stored (peek p m) l a.
Proof.
  induction l as [|[a v] l IH]; intros m m' Hp Hl E; cbn [store_all] in E.
  - injection E as <-. split; [exact Hp|]. split; [reflexivity|]. reflexivity.
  - apply Forall_cons_iff in Hl as [[Ha Hv] Hl]. cbn [fst snd] in *.
    destruct (am_write p m a v) as [[m1 [w|]]|] eqn:Ew; try discriminate.
    destruct (plain_write p m a v m1 w Hp Hv Ew) as (Hp1 & Hr1 & Hf1).
    destruct (IH m1 m' Hp1 Hl E) as (Hp' & Hr' & Hf'). split; [exact Hp'|]. split; [intros b; rewrite Hr'; apply Hr1|].
    intros b. rewrite Hf'. unfold stored. cbn [fold_left]. change (fold_left store1 l (store1 (peek p m) (a, v))) with (stored (store1 (peek p m) (a, v)) l).
    change (fold_left store1 l (peek p m1)) with (stored (peek p m1) l).
    clear - Hf1. assert (G : forall f g : Z -> Z, (forall x, f x = g x) -> forall x, stored f l x = stored g l x).
    { induction l as [|w0 l IH]; intros f g H x; [apply H|]. unfold stored. cbn [fold_left]. apply IH. intros y. unfold store1. rewrite H. reflexivity. }
    apply G. intros x. rewrite Hf1. reflexivity.
Qed.
Lemma stored_other l : forall f a, ~ In a (map fst l) -> stored f l a = f a.
Proof.
  induction l as [|[b v] l IH]; intros f a H; [reflexivity|]. unfold stored. cbn [fold_left map fst In] in *.
  change (fold_left store1 l ?g) with (stored g l). rewrite IH by tauto. unfold store1. cbn [fst snd].
  replace (a =? b) with false; [reflexivity|]. symmetry. apply Z.eqb_neq. intros ->. tauto.
Qed.
Lemma stored_congr l : forall f g a, f a = g a -> stored f l a = stored g l a.
Proof.
  induction l as [|[b v] l IH]; intros f g a H; [exact H|]. unfold stored. cbn [fold_left].
  apply IH. unfold store1. cbn [fst snd]. rewrite H. reflexivity.
Qed.
Lemma stored_in l : forall f g a, In a (map fst l) -> stored f l a = stored g l a.
Proof.
  induction l as [|[b v] l IH]; intros f g a H; [contradiction|]. unfold stored. cbn [fold_left map fst] in *.
  change (fold_left store1 l ?h) with (stored h l).
  destruct (in_dec Z.eq_dec a (map fst l)) as [K|K]; [apply IH, K|].
  destruct H as [<-|H]; [|contradiction]. rewrite !stored_other by exact K. unfold store1. cbn [fst snd].
  rewrite Z.eqb_refl. reflexivity.
Qed.
(** Stores to different places can be exchanged. *)
Lemma stored_exchange l1 l2 f a : (forall b, In b (map fst l1) -> ~ In b (map fst l2)) ->
  stored (stored f l1) l2 a = stored (stored f l2) l1 a.
Proof.
  intros H. destruct (in_dec Z.eq_dec a (map fst l1)) as [K|K].
  - rewrite (stored_other l2) by (apply H, K). apply stored_in, K.
  - rewrite (stored_other l1 (stored f l2)) by exact K. apply stored_congr, stored_other, K.
Qed.

(** ** One step of a machine with plain memory *)
Definition all_ram (m : address_map memory) (l : list (Z * Z)) : Prop := forall a, In a (map fst l) -> ram_at m a.

Lemma machine_bytes p (cpu : mos6502 memory) : plain_map (amap cpu) -> bus_reads p (amap cpu) (peek p (amap cpu)) /\ byte_valued (peek p (amap cpu)).
Proof. intros H. exact (bus_peek p _ _ (plain_ram_bus p (fun _ => False)) _ (plain_in _ H)). Qed.

Lemma machine_step p (cpu : mos6502 memory) e : plain_map (amap cpu) -> regs_ok (regs_of cpu) ->
  step p (regs_of cpu) (peek p (amap cpu)) = Some e -> all_ram (amap cpu) (e_stores e) ->
  exists cpu', observed_step p cpu = Ok (e_cycles e, cpu') /\ regs_of cpu' = e_regs e /\ plain_map (amap cpu') /\ regs_ok (regs_of cpu') /\
    (forall a, ram_at (amap cpu') a <-> ram_at (amap cpu) a) /\
    forall a, peek p (amap cpu') a = stored (peek p (amap cpu)) (e_stores e) a.
Proof.
  intros Hp Hr He Ha. destruct (machine_bytes p cpu Hp) as [Hb Hv].
  rewrite (step_spec p _ _ (plain_ram_bus p (fun _ => False)) cpu (plain_in _ Hp) Hr), He. unfold spec_outcome.
  destruct (step_ok _ _ _ _ Hv Hr He) as [K1 K2].
  destruct (store_all p (amap cpu) (e_stores e)) as [m'|] eqn:Es.
  - exists (cpu_with (e_regs e) m'). rewrite regs_of_cpu_with. destruct (stores_plain p _ _ _ Hp K2 Es) as (P & R & F).
    repeat (split; [reflexivity||assumption|]). exact F.
  - exfalso. apply (stores_panic_iff p _ _ Hp K2) in Es. destruct Es as (a & H1 & H2). exact (H2 (Ha a H1)).
Qed.
Lemma machine_step_inv p (cpu : mos6502 memory) n cpu' : plain_map (amap cpu) -> regs_ok (regs_of cpu) ->
  observed_step p cpu = Ok (n, cpu') ->
  exists e, step p (regs_of cpu) (peek p (amap cpu)) = Some e /\ all_ram (amap cpu) (e_stores e).
Proof.
  intros Hp Hr E. destruct (machine_bytes p cpu Hp) as [Hb Hv].
  rewrite (step_spec p _ _ (plain_ram_bus p (fun _ => False)) cpu (plain_in _ Hp) Hr) in E. unfold spec_outcome in E.
  destruct (step p (regs_of cpu) (peek p (amap cpu))) as [e|] eqn:He; [|discriminate]. exists e. split; [reflexivity|].
  destruct (step_ok _ _ _ _ Hv Hr He) as [K1 K2].
  destruct (store_all p (amap cpu) (e_stores e)) as [m'|] eqn:Es; [|discriminate].
  intros a Ha. assert (N : ~ exists a, In a (map fst (e_stores e)) /\ ~ ram_at (amap cpu) a)
    by (rewrite <- (stores_panic_iff p _ _ Hp K2); congruence).
  assert (D : ram_at (amap cpu) a \/ ~ ram_at (amap cpu) a).
  { clear. unfold ram_at. induction (amap cpu) as [|x l IH]; [right; intros (e & [] & _)|].
    destruct IH as [(e & H1 & H2)|IH]; [left; exists e; split; [right; exact H1|exact H2]|].
    destruct (Z_le_dec (range_lo x) a), (Z_le_dec a (range_hi x)), (mem_kind (device x)) eqn:K;
      try (left; exists x; split; [left; reflexivity|]; split; [lia|exact K]);
      right; intros (e & [<-|H1] & H2); try (apply IH; exists e; tauto); destruct H2; try congruence; lia. }
  destruct D as [D|D]; [exact D|]. exfalso. apply N. exists a. auto.
Qed.

(** ** An instruction that stands at PC *)
Lemma fetched f a i l : instruction_ok i -> bytes_from f a (code_of i ++ l) ->
  f a = i_opcode i /\ same_bytes (i_mode i) (i_b1 i) (i_b2 i) (f (a + 1)) (f (a + 2)) /\
  bytes_from f (a + length_of (i_mode i)) l.
Proof.
  intros _ H. unfold code_of, size, same_bytes in *. replace (a + 2) with (a + 1 + 1) by lia.
  assert (L : length_of (i_mode i) = 1 \/ length_of (i_mode i) = 2 \/ length_of (i_mode i) = 3) by (destruct (i_mode i); auto).
  destruct L as [L|[L|L]]; rewrite L in *;
    [change (Z.to_nat 1) with 1%nat in H|change (Z.to_nat 2) with 2%nat in H; replace (a + 2) with (a + 1 + 1) by lia
    |change (Z.to_nat 3) with 3%nat in H; replace (a + 3) with (a + 1 + 1 + 1) by lia];
    cbn [firstn app bytes_from] in H.
  - destruct H as (H1 & H2). split; [exact H1|]. split; [split; lia|exact H2].
  - destruct H as (H1 & H2 & H3). split; [exact H1|]. split; [split; [intros _; congruence|lia]|exact H3].
  - destruct H as (H1 & H2 & H3 & H4). split; [exact H1|]. split; [split; intros _; congruence|exact H4].
Qed.

Definition alone (p : profile) (i : instruction) (r : registers) (f : Z -> Z) : option effect :=
  execute p (i_mnemonic i) (i_mode i) (i_cycles i) r f (i_b1 i) (i_b2 i).

(** Registers after an instruction, in terms of what it does alone. *)
Definition sets_like (i : instruction) (e : effect) (r r' : registers) : Prop :=
  rPC r' = (rPC r + length_of (i_mode i)) mod 65536 /\
  forall x, (In x (sets (i_mnemonic i) (i_mode i)) -> same (e_regs e) r' x) /\
            (~ In x (sets (i_mnemonic i) (i_mode i)) -> same r r' x).

Section Here.
Context (p : profile) (i : instruction) (r : registers) (f : Z -> Z) (Hi : instruction_ok i)
  (Hc : transfers_control (i_mnemonic i) = false) (Hr : regs_ok r) (Hf : byte_valued f).

Lemma alone_step r2 f2 l : regs_ok r2 -> 0 <= rPC r2 <= 0xfffd ->
  bytes_from f2 (rPC r2) (code_of i ++ l) ->
  (forall x, In x (emulator_looks_at (i_mnemonic i) (i_mode i)) -> same r r2 x) ->
  (forall a, In a (reads_at i r f) -> f2 a = f a) ->
  match alone p i r f, step p r2 f2 with
  | Some e, Some e2 => e_stores e2 = e_stores e /\ e_cycles e2 = e_cycles e /\ sets_like i e r2 (e_regs e2)
  | None, None => True
  | _, _ => False
  end.
Proof.
  intros Hr2 Hpc Hb Hs Hrd. destruct Hi as (Hd & U1 & U2). destruct (fetched _ _ _ _ Hi Hb) as (F0 & F1 & _).
  rewrite (step_at p r2 f2 _ _ _ _ Hpc F0 Hd).
  assert (Ft := decode_fits _ _ _ _ Hd). assert (Po := decode_possible _ _ _ _ Hd).
  assert (K := execute_depends p _ _ (i_cycles i) r r2 f f2 _ _ _ _ Ft Hr Hf U1 U2 (or_intror Hc) F1 (proj2 (Forall_forall _ _) Hs) Hrd).
  unfold alone. destruct (execute p _ _ _ r f _ _) as [e|] eqn:E1, (execute p _ _ _ r2 f2 _ _) as [e2|] eqn:E2; try contradiction; [|exact I].
  destruct K as (K1 & K2 & _ & K4 & K5). split; [congruence|]. split; [congruence|]. split; [exact (proj2 (K4 Hc))|].
  intros x. rewrite Forall_forall in K5. split; [apply K5|]. intros Hx. apply same_sym. exact (unset_same _ _ _ _ _ _ _ _ _ Po E2 x Hx).
Qed.

Lemma alone_writes e : alone p i r f = Some e -> map fst (e_stores e) = writes_at i r f.
Proof.
  intros E. destruct Hi as (Hd & U1 & U2). assert (K := execute_cases p _ _ (i_cycles i) r f _ _ Hr Hf U1 U2 (decode_possible _ _ _ _ Hd)).
  unfold alone in E. destruct (_ && _); [congruence|]. destruct K as (e' & E' & K). rewrite E in E'. injection E' as <-. exact K.
Qed.
End Here.

(** ** Two instructions *)
Lemma unrelated_sym r f code i j : unrelated r f code i j -> unrelated r f code j i.
Proof.
  intros (S1 & S2 & W1 & W2 & C). repeat split.
  - apply S2, H.
  - intros K. exact (proj2 (S1 x K) H).
  - intros x H. apply (S1 x H).
  - apply W2, H.
  - intros K. exact (proj2 (W1 a K) H).
  - intros a H. apply (W1 a H).
  - intros a H. apply C. rewrite !in_app_iff in *. tauto.
Qed.
(** DEY looks at X (C86), but whatever sets X sets N and Z, as DEY does. *)
Lemma unrelated_looks r f code i j : unrelated r f code i j ->
  forall x, In x (sets (i_mnemonic i) (i_mode i)) -> ~ In x (emulator_looks_at (i_mnemonic j) (i_mode j)).
Proof.
  intros (S1 & _) x Hx Hj. unfold emulator_looks_at in Hj. apply in_app_iff in Hj. destruct Hj as [Hj|Hj]; [exact (proj1 (S1 x Hx) Hj)|].
  assert (K : In (Reg RX) (sets (i_mnemonic i) (i_mode i)) -> In (Flag FZ) (sets (i_mnemonic i) (i_mode i))).
  { destruct (i_mnemonic i); cbn [sets may_change flags_changed map app In]; try (intros; tauto);
      destruct (i_mode i); cbn [map app In]; intuition discriminate. }
  assert (D : i_mnemonic j = Dey /\ x = Reg RX).
  { destruct (i_mnemonic j); try contradiction Hj. destruct Hj as [<-|[]]. auto. }
  destruct D as [D ->]. apply (proj2 (S1 (Flag FZ) (K Hx))). rewrite D. cbn. auto.
Qed.

Lemma bytes_from_congr f g l : forall a, (forall k, 0 <= k < Z.of_nat (length l) -> g (a + k) = f (a + k)) ->
  bytes_from f a l -> bytes_from g a l.
Proof.
  induction l as [|b l IH]; intros a H B; [exact I|]. destruct B as [B1 B2]. cbn [length] in H. split.
  - rewrite <- B1. specialize (H 0). rewrite Z.add_0_r in H. apply H. lia.
  - apply IH; [|exact B2]. intros k Hk. replace (a + 1 + k) with (a + (k + 1)) by lia. apply H. lia.
Qed.
Lemma code_length i : length (code_of i) = size i.
Proof. unfold code_of, size. rewrite firstn_length. destruct (i_mode i); reflexivity. Qed.
Lemma size_pos i : (1 <= size i)%nat /\ Z.of_nat (size i) = length_of (i_mode i).
Proof. unfold size. destruct (i_mode i); cbn [length_of]; lia. Qed.

Section Two.
Context (p : profile) (start : Z) (i j : instruction) (r : registers) (f : Z -> Z).
Context (Hi : instruction_ok i) (Hj : instruction_ok j)
  (Ci : transfers_control (i_mnemonic i) = false) (Cj : transfers_control (i_mnemonic j) = false)
  (Hr : regs_ok r) (Hf : byte_valued f) (Hs : 0 <= start) (He : start + Z.of_nat (size i + size j) + 2 <= 65536)
  (Hpc : rPC r = start).
Context (code : Z -> Prop) (Hcode : forall a, code a <-> block start (size i + size j) a) (U : unrelated r f code i j).
Context (A : mos6502 memory) (HA : plain_map (amap A)) (HrA : regs_of A = r)
  (HfA : forall a, ~ code a -> peek p (amap A) a = f a)
  (HcA : bytes_from (peek p (amap A)) start (code_of i ++ code_of j)).

Lemma reads_outside a : In a (reads_at i r f) \/ In a (reads_at j r f) \/ In a (writes_at i r f) \/ In a (writes_at j r f) -> ~ code a.
Proof. intros H. apply U. rewrite !in_app_iff. tauto. Qed.

Lemma first_step : match alone p i r f, step p (regs_of A) (peek p (amap A)) with
  | Some e, Some e2 => e_stores e2 = e_stores e /\ e_cycles e2 = e_cycles e /\ sets_like i e r (e_regs e2)
  | None, None => True | _, _ => False end.
Proof.
  rewrite HrA. destruct (size_pos i) as [P1 P2], (size_pos j) as [P3 P4].
  apply (alone_step p i r f Hi Ci Hr Hf r (peek p (amap A)) (code_of j) Hr); [lia|rewrite Hpc; exact HcA| |].
  - intros x _. destruct x; reflexivity.
  - intros a Ha. apply HfA, reads_outside. auto.
Qed.

Lemma second_step ei A1 : alone p i r f = Some ei -> sets_like i ei r (regs_of A1) -> regs_ok (regs_of A1) ->
  (forall a, peek p (amap A1) a = stored (peek p (amap A)) (e_stores ei) a) ->
  match alone p j r f, step p (regs_of A1) (peek p (amap A1)) with
  | Some e, Some e2 => e_stores e2 = e_stores e /\ e_cycles e2 = e_cycles e /\ sets_like j e (regs_of A1) (e_regs e2)
  | None, None => True | _, _ => False end.
Proof.
  intros Ei (Lp & Lx) Ok1 F1. destruct (size_pos i) as [P1 P2], (size_pos j) as [P3 P4].
  assert (Wi := alone_writes p i r f Hi Hr Hf _ Ei).
  assert (Pc : rPC (regs_of A1) = start + length_of (i_mode i)) by (rewrite Lp, Hpc; apply Z.mod_small; lia).
  apply (alone_step p j r f Hj Cj Hr Hf (regs_of A1) (peek p (amap A1)) [] Ok1); [lia| | |].
  - rewrite app_nil_r, Pc. destruct (fetched _ _ _ _ Hi HcA) as (_ & _ & K).
    refine (bytes_from_congr _ _ _ _ _ K). intros k Hk. rewrite code_length in Hk. rewrite F1. apply stored_other.
    rewrite Wi. intros W. apply (reads_outside (start + length_of (i_mode i) + k)); [auto|]. apply Hcode. unfold block. lia.
  - intros x Hx. apply Lx. intros Hx2. exact (unrelated_looks _ _ _ _ _ U x Hx2 Hx).
  - intros a Ha. rewrite F1, stored_other; [apply HfA, reads_outside; auto|]. rewrite Wi. intros W.
    destruct U as (_ & _ & W1 & _). exact (proj1 (W1 a W) Ha).
Qed.

Definition after_both (ei ej : effect) (A' : mos6502 memory) : Prop :=
  plain_map (amap A') /\ regs_ok (regs_of A') /\ (forall a, ram_at (amap A') a <-> ram_at (amap A) a) /\
  (forall a, peek p (amap A') a = stored (stored (peek p (amap A)) (e_stores ei)) (e_stores ej) a) /\
  rPC (regs_of A') = start + Z.of_nat (size i + size j) /\
  forall x, (In x (sets (i_mnemonic i) (i_mode i)) -> same (e_regs ei) (regs_of A') x) /\
            (In x (sets (i_mnemonic j) (i_mode j)) -> same (e_regs ej) (regs_of A') x) /\
            (~ In x (sets (i_mnemonic i) (i_mode i)) -> ~ In x (sets (i_mnemonic j) (i_mode j)) -> same r (regs_of A') x).

Lemma two_sound ei ej : alone p i r f = Some ei -> alone p j r f = Some ej ->
  all_ram (amap A) (e_stores ei) -> all_ram (amap A) (e_stores ej) ->
  exists A', two_instructions p A = Ok ((e_cycles ei + e_cycles ej)%nat, A') /\ after_both ei ej A'.
Proof.
  intros Ei Ej Ri Rj. assert (S1 := first_step). rewrite Ei in S1.
  destruct (step p (regs_of A) (peek p (amap A))) as [e1|] eqn:E1; [|contradiction].
  destruct S1 as (S1 & T1 & L1). assert (OkA : regs_ok (regs_of A)) by (rewrite HrA; exact Hr).
  destruct (machine_step p A e1 HA OkA E1 ltac:(rewrite S1; exact Ri)) as (A1 & O1 & G1 & P1 & Q1 & M1 & F1).
  rewrite S1 in F1. rewrite <- G1 in L1. assert (S2 := second_step ei A1 Ei L1 Q1 F1). rewrite Ej in S2.
  destruct (step p (regs_of A1) (peek p (amap A1))) as [e2|] eqn:E2; [|contradiction]. destruct S2 as (S2 & T2 & L2).
  assert (Rj1 : all_ram (amap A1) (e_stores e2)) by (rewrite S2; intros a Ha; apply M1, Rj, Ha).
  destruct (machine_step p A1 e2 P1 Q1 E2 Rj1) as (A2 & O2 & G2 & P2 & Q2 & M2 & F2).
  rewrite S2 in F2. rewrite <- G2 in L2. exists A2. unfold two_instructions. rewrite O1, O2. split; [congruence|].
  split; [exact P2|]. split; [exact Q2|]. split; [intros a; rewrite M2; apply M1|]. split.
  { intros a. rewrite F2. apply stored_congr, F1. }
  destruct L1 as [LP1 LX1], L2 as [LP2 LX2]. destruct (size_pos i) as [Z1 Z2], (size_pos j) as [Z3 Z4]. split.
  { rewrite LP2, LP1, Hpc. rewrite (Z.mod_small (start + _)) by lia. rewrite Z.mod_small; lia. }
  intros x. split; [|split].
  - intros Hx. refine (same_trans _ _ _ _ (proj1 (LX1 x) Hx) _). apply LX2. exact (proj2 (proj1 U x Hx)).
  - intros Hx. apply LX2, Hx.
  - intros N1 N2. refine (same_trans _ _ _ _ (proj2 (LX1 x) N1) _). apply LX2, N2.
Qed.

Lemma two_inv n A' : two_instructions p A = Ok (n, A') -> exists ei ej, alone p i r f = Some ei /\ alone p j r f = Some ej /\
  all_ram (amap A) (e_stores ei) /\ all_ram (amap A) (e_stores ej).
Proof.
  intros E. unfold two_instructions in E. destruct (observed_step p A) as [[n1 A1]|] eqn:O1; [|discriminate].
  destruct (observed_step p A1) as [[n2 A2]|] eqn:O2; [|discriminate]. clear E.
  assert (OkA : regs_ok (regs_of A)) by (rewrite HrA; exact Hr).
  destruct (machine_step_inv p A n1 A1 HA OkA O1) as (e1 & E1 & R1).
  assert (S1 := first_step). rewrite E1 in S1. destruct (alone p i r f) as [ei|] eqn:Ei; [|contradiction].
  destruct S1 as (S1 & T1 & L1).
  destruct (machine_step p A e1 HA OkA E1 R1) as (A1' & O1' & G1 & P1 & Q1 & M1 & F1).
  rewrite O1 in O1'. injection O1' as -> <-. rewrite S1 in F1, R1. rewrite <- G1 in L1.
  assert (S2 := second_step ei A1 Ei L1 Q1 F1).
  destruct (machine_step_inv p A1 n2 A2 P1 Q1 O2) as (e2 & E2 & R2). rewrite E2 in S2.
  destruct (alone p j r f) as [ej|]; [|contradiction]. destruct S2 as (S2 & _). exists ei, ej.
  split; [reflexivity|]. split; [reflexivity|]. split; [exact R1|]. intros a Ha. apply M1, R2. rewrite S2. exact Ha.
Qed.
End Two.

Lemma part_dec (x : part) l : In x l \/ ~ In x l.
Proof. destruct (in_dec (fun a b : part => ltac:(decide equality; decide equality)) x l); auto. Qed.

(** ** C99 *)
(** Two machines that differ only in the order in which two unrelated
    instructions stand at PC: the two instructions take the same time on both,
    and the machines still differ only in that order; or both panic. *)
Theorem C99_exchange : forall p start i j (cpu cpu2 : mos6502 memory),
  instruction_ok i -> instruction_ok j ->
  transfers_control (i_mnemonic i) = false -> transfers_control (i_mnemonic j) = false ->
  0 <= start -> start + Z.of_nat (size i + size j) + 2 <= 65536 ->
  differ_in_order p start i j cpu cpu2 -> reg_pc cpu = start ->
  unrelated (regs_of cpu) (peek p (amap cpu)) (pair_at start i j) i j ->
  match two_instructions p cpu, two_instructions p cpu2 with
  | Ok (n, cpu'), Ok (n2, cpu2') => n2 = n /\ differ_in_order p start i j cpu' cpu2' /\
      reg_pc cpu' = start + Z.of_nat (size i + size j)
  | Panic, Panic => True
  | _, _ => False
  end.
Proof.
  intros p start i j A B Hi Hj Ci Cj Hs He (PA & PB & Ok & Rg & Rm & BA & BB & Fr) Hpc U.
  set (r := regs_of A) in *. set (f := peek p (amap A)) in *. change (rPC r = start) in Hpc.
  assert (Hf : byte_valued f) by exact (proj2 (machine_bytes p A PA)).
  assert (He2 : start + Z.of_nat (size j + size i) + 2 <= 65536) by lia.
  assert (Hc : forall a, pair_at start i j a <-> block start (size i + size j) a) by reflexivity.
  assert (Hc2 : forall a, pair_at start i j a <-> block start (size j + size i) a) by (intros a; unfold pair_at, block; lia).
  assert (IA := two_inv p start i j r f Hi Hj Ci Cj Ok Hf Hs He Hpc _ Hc U A PA eq_refl (fun _ _ => eq_refl) BA).
  assert (SA := two_sound p start i j r f Hi Hj Ci Cj Ok Hf Hs He Hpc _ Hc U A PA eq_refl (fun _ _ => eq_refl) BA).
  assert (U2 := unrelated_sym _ _ _ _ _ U).
  assert (IB := two_inv p start j i r f Hj Hi Cj Ci Ok Hf Hs He2 Hpc _ Hc2 U2 B PB Rg Fr BB).
  assert (SB := two_sound p start j i r f Hj Hi Cj Ci Ok Hf Hs He2 Hpc _ Hc2 U2 B PB Rg Fr BB).
  assert (RamB : forall l, all_ram (amap B) l <-> all_ram (amap A) l).
  { intros l. split; intros H a Ha; apply Rm, H, Ha. }
  destruct (two_instructions p A) as [[n A']|] eqn:EA.
  - destruct (IA n A' eq_refl) as (ei & ej & Ei & Ej & Ri & Rj).
    destruct (SA ei ej Ei Ej Ri Rj) as (A1 & EA1 & PA' & OkA' & RmA' & FA' & PcA' & XA').
    injection EA1 as -> <-.
    destruct (SB ej ei Ej Ei (proj2 (RamB _) Rj) (proj2 (RamB _) Ri)) as (B' & EB & PB' & OkB' & RmB' & FB' & PcB' & XB').
    rewrite EB. split; [lia|]. split; [|exact PcA'].
    assert (Wi := alone_writes p i r f Hi Ok Hf _ Ei). assert (Wj := alone_writes p j r f Hj Ok Hf _ Ej).
    assert (Out : forall a, pair_at start i j a -> ~ In a (map fst (e_stores ei)) /\ ~ In a (map fst (e_stores ej))).
    { intros a Ha. rewrite Wi, Wj. destruct U as (_ & _ & _ & _ & C). split; intros H; apply (C a); rewrite ?in_app_iff; auto. }
    split; [exact PA'|]. split; [exact PB'|]. split; [exact OkA'|]. split.
    { symmetry. apply regs_parts; [rewrite PcA', PcB'; lia|]. intros x. destruct (XA' x) as (X1 & X2 & X3), (XB' x) as (Y1 & Y2 & Y3).
      destruct (part_dec x (sets (i_mnemonic i) (i_mode i))) as [H|H].
      - exact (same_trans _ _ _ _ (same_sym _ _ _ (X1 H)) (Y2 H)).
      - destruct (part_dec x (sets (i_mnemonic j) (i_mode j))) as [H'|H'].
        + exact (same_trans _ _ _ _ (same_sym _ _ _ (X2 H')) (Y1 H')).
        + exact (same_trans _ _ _ _ (same_sym _ _ _ (X3 H H')) (Y3 H' H)). }
    split; [intros a; rewrite RmA', RmB'; apply Rm|].
    split; [|split].
    + refine (bytes_from_congr _ _ _ _ _ BA). intros k Hk. rewrite app_length, !code_length in Hk.
      destruct (Out (start + k)) as [O1 O2]; [unfold pair_at, block; lia|]. rewrite FA', !stored_other by assumption. reflexivity.
    + refine (bytes_from_congr _ _ _ _ _ BB). intros k Hk. rewrite app_length, !code_length in Hk.
      destruct (Out (start + k)) as [O1 O2]; [unfold pair_at, block; lia|]. rewrite FB', !stored_other by assumption. reflexivity.
    + intros a Ha. rewrite FA', FB'. rewrite (stored_exchange (e_stores ej)).
      * apply stored_congr, stored_congr, Fr, Ha.
      * rewrite Wi, Wj. intros b H1 H2. destruct U as (_ & _ & W & _). exact (proj2 (W b H2) H1).
  - destruct (two_instructions p B) as [[n B']|] eqn:EB; [|exact I].
    destruct (IB n B' eq_refl) as (ej & ei & Ej & Ei & Rj & Ri).
    destruct (SA ei ej Ei Ej (proj1 (RamB _) Ri) (proj1 (RamB _) Rj)) as (A1 & EA1 & _). discriminate EA1.
Qed.

(** One instruction that stands elsewhere and neither reads nor writes the two. *)
Lemma other_step p start i j (A B : mos6502 memory) mn m c b1 b2 n A' : differ_in_order p start i j A B ->
  about_to p A (peek p (amap A)) mn m c b1 b2 ->
  (forall d, 0 <= d < length_of m -> ~ pair_at start i j ((reg_pc A + d) mod 65536)) ->
  (forall a, In a (reads_of mn m (regs_of A) (peek p (amap A)) b1 b2 ++ writes_of mn m (regs_of A) (peek p (amap A)) b1 b2) -> ~ pair_at start i j a) ->
  observed_step p A = Ok (n, A') -> exists B', observed_step p B = Ok (n, B') /\ differ_in_order p start i j A' B'.
Proof.
  intros (PA & PB & Ok & Rg & Rm & BA & BB & Fr) Ab Hd Ha Es.
  assert (Ab0 := Ab). destruct Ab as (_ & _ & Hv & Hp & De & E1 & E2). destruct (about_bytes _ _ _ _ _ _ _ _ Ab0) as [U1 U2].
  assert (OkB : regs_ok (regs_of B)) by (rewrite Rg; exact Ok). destruct (machine_bytes p B PB) as [RB VB].
  assert (PcB : reg_pc B = reg_pc A) by (change (rPC (regs_of B) = rPC (regs_of A)); rewrite Rg; reflexivity).
  assert (Upc : u16 (reg_pc A)) by (destruct Ok as (_ & _ & _ & _ & K); exact K).
  assert (Lm : 1 <= length_of m) by (destruct m; cbn; lia).
  set (d1 := peek p (amap B) ((reg_pc A + 1) mod 65536)). set (d2 := peek p (amap B) ((reg_pc A + 2) mod 65536)).
  assert (AbB : about_to p B (peek p (amap B)) mn m c d1 d2).
  { unfold about_to. rewrite PcB. split; [exact OkB|]. split; [exact RB|]. split; [exact VB|]. split; [exact Hp|].
    split; [|split; reflexivity]. rewrite Fr; [exact De|]. specialize (Hd 0 ltac:(lia)). rewrite Z.add_0_r in Hd.
    unfold u16 in Upc. rewrite Z.mod_small in Hd by lia. exact Hd. }
  assert (Sb : same_bytes m b1 b2 d1 d2).
  { split; intros L; unfold d1, d2; rewrite ?E1, ?E2; symmetry; apply Fr, Hd; lia. }
  assert (K := execute_depends p mn m c (regs_of A) (regs_of B) (peek p (amap A)) (peek p (amap B)) b1 b2 d1 d2
    (decode_fits _ _ _ _ De) Ok Hv U1 U2 (or_introl (f_equal rPC (eq_sym Rg))) Sb).
  specialize (K ltac:(apply Forall_forall; intros x _; rewrite Rg; destruct x; reflexivity)).
  specialize (K ltac:(intros a H; apply Fr, Ha, in_or_app; left; exact H)).
  assert (Po := decode_possible _ _ _ _ De).
  assert (Ec := execute_cases p mn m c (regs_of A) (peek p (amap A)) b1 b2 Ok Hv U1 U2 Po).
  assert (Es2 := Es). rewrite (about_step _ _ _ _ _ _ _ _ Ab0) in Es2. rewrite (about_step _ _ _ _ _ _ _ _ AbB).
  unfold spec_outcome in Es2 |- *.
  destruct (execute p mn m c (regs_of A) (peek p (amap A)) b1 b2) as [e|] eqn:Ea; [|discriminate].
  destruct (execute p mn m c (regs_of B) (peek p (amap B)) d1 d2) as [e2|] eqn:Eb; [|contradiction].
  destruct (_ && _); [discriminate|]. destruct Ec as (e' & Ee & Wr). injection Ee as <-.
  destruct K as (K1 & K2 & K3 & _ & K5).
  destruct (execute_ok _ _ _ _ _ _ _ _ _ Hv Ok U1 U2 Ea) as [OkE St].
  destruct (store_all p (amap A) (e_stores e)) as [mA|] eqn:SA; [|discriminate]. injection Es2 as <- <-.
  rewrite <- K1. destruct (store_all p (amap B) (e_stores e)) as [mB|] eqn:SB.
  - exists (cpu_with (e_regs e2) mB). split; [rewrite K2; reflexivity|].
    destruct (stores_plain p _ _ _ PA St SA) as (PA' & RA' & FA'). destruct (stores_plain p _ _ _ PB St SB) as (PB' & RB' & FB').
    change (mkMos6502 mA _ _ _ _ _ _) with (cpu_with (e_regs e) mA).
    assert (Out : forall a, pair_at start i j a -> ~ In a (map fst (e_stores e))).
    { intros a Hp' H. rewrite Wr in H. apply (Ha a); [apply in_or_app; right; exact H|exact Hp']. }
    unfold differ_in_order. rewrite !regs_of_cpu_with. cbn [amap cpu_with].
    split; [exact PA'|]. split; [exact PB'|]. split; [exact OkE|]. split.
    { symmetry. apply regs_parts; [apply K3; rewrite Rg; reflexivity|]. intros x. rewrite Forall_forall in K5.
      destruct (part_dec x (sets mn m)) as [H|H]; [exact (K5 x H)|].
      refine (same_trans _ _ _ _ (unset_same _ _ _ _ _ _ _ _ _ Po Ea x H) _). rewrite <- Rg. apply same_sym.
      exact (unset_same _ _ _ _ _ _ _ _ _ Po Eb x H). }
    split; [intros a; rewrite RA', RB'; apply Rm|]. split; [|split].
    + refine (bytes_from_congr _ _ _ _ _ BA). intros k Hk. rewrite app_length, !code_length in Hk.
      rewrite FA', stored_other; [reflexivity|]. apply Out. unfold pair_at, block. lia.
    + refine (bytes_from_congr _ _ _ _ _ BB). intros k Hk. rewrite app_length, !code_length in Hk.
      rewrite FB', stored_other; [reflexivity|]. apply Out. unfold pair_at, block. lia.
    + intros a Hp'. rewrite FA', FB'. apply stored_congr, Fr, Hp'.
  - exfalso. apply (stores_panic_iff p _ _ PB St) in SB. destruct SB as (a & H1 & H2).
    assert (store_all p (amap A) (e_stores e) = Panic) by (apply (stores_panic_iff p _ _ PA St); exists a; split; [exact H1|]; rewrite <- Rm; exact H2).
    congruence.
Qed.

(** A run that comes any number of times to the two instructions, each time
    when they are unrelated, and otherwise leaves their bytes alone: with the
    two exchanged, it executes as many instructions in as many cycles and ends
    with the same registers and, but for the order of the two, the same memory. *)
Theorem C99_exchange_in_program : forall p start i j k t (cpu cpu' cpu2 : mos6502 memory),
  instruction_ok i -> instruction_ok j ->
  transfers_control (i_mnemonic i) = false -> transfers_control (i_mnemonic j) = false ->
  0 <= start -> start + Z.of_nat (size i + size j) + 2 <= 65536 ->
  differ_in_order p start i j cpu cpu2 ->
  passes p start i j k t cpu cpu' ->
  exists cpu2', runs p k t cpu2 cpu2' /\ differ_in_order p start i j cpu' cpu2'.
Proof.
  intros p start i j k t A A' B Hi Hj Ci Cj Hs He Hd H.
  assert (K : exists B', steps p k t B B' /\ differ_in_order p start i j A' B').
  { revert B Hd. induction H as [A|n k t A A1 A' Pc U Et H IH|mn m c b1 b2 n k t A A1 A' Ab Ho Ha Es H IH]; intros B Hd.
    - exists B. split; [constructor|exact Hd].
    - assert (X := C99_exchange p start i j A B Hi Hj Ci Cj Hs He Hd Pc U). rewrite Et in X.
      destruct (two_instructions p B) as [[n2 B1]|] eqn:EB; [|contradiction]. destruct X as (-> & Hd1 & _).
      destruct (IH B1 Hd1) as (B' & S' & D'). exists B'. split; [|exact D'].
      unfold two_instructions in EB. destruct (observed_step p B) as [[k1 B0]|] eqn:E1; [|discriminate].
      destruct (observed_step p B0) as [[k2 B2]|] eqn:E2; [|discriminate]. injection EB as <- ->.
      rewrite <- Nat.add_assoc. eapply steps_cons; [exact E1|]. eapply steps_cons; [exact E2|exact S'].
    - destruct (other_step p start i j A B mn m c b1 b2 n A1 Hd Ab Ho Ha Es) as (B1 & E1 & Hd1).
      destruct (IH B1 Hd1) as (B' & S' & D'). exists B'. split; [|exact D']. eapply steps_cons; eassumption. }
  destruct K as (B' & S' & D'). exists B'. split; [|exact D']. split; [exact S'|].
  apply run_ready_iff. exists k, t. split; [exact S'|]. split; [lia|left; reflexivity].
Qed.

Print Assumptions C99_exchange.
Print Assumptions C99_exchange_in_program.

(** ** A concrete case *)
(** LDX #2 / STA 0x10 / DEX / BNE to the STA, in ROM, and the same with STA
    and DEX exchanged: 7 instructions, the pair is passed twice. *)
Definition loop_sta : instruction := mkInstruction 0x85 0x10 0 Sta ZeroPage 3.
Definition loop_dex : instruction := mkInstruction 0xca 0 0 Dex Implied 2.
Definition loop_machine (order : bool) : mos6502 memory :=
  machine [] ([0xa2; 2] ++ (if order then [0x85; 0x10; 0xca] else [0xca; 0x85; 0x10]) ++ [0xd0; 0xfd; 0xea; 0xea; 0xea]) 77 0 0 0xff ps0.

Definition inside (x : part) (l : list part) : bool := if in_dec (fun a b : part => ltac:(decide equality; decide equality)) x l then true else false.
Definition insideZ (x : Z) (l : list Z) : bool := if in_dec Z.eq_dec x l then true else false.
Definition in_pair (start : Z) (i j : instruction) (a : Z) : bool := (start <=? a) && (a <? start + Z.of_nat (size i + size j)).
Definition unrelatedb (r : registers) (f : Z -> Z) (start : Z) (i j : instruction) : bool :=
  forallb (fun x => negb (inside x (looks_at (i_mnemonic j) (i_mode j))) && negb (inside x (sets (i_mnemonic j) (i_mode j)))) (sets (i_mnemonic i) (i_mode i)) &&
  forallb (fun x => negb (inside x (looks_at (i_mnemonic i) (i_mode i)))) (sets (i_mnemonic j) (i_mode j)) &&
  forallb (fun a => negb (insideZ a (reads_at j r f)) && negb (insideZ a (writes_at j r f))) (writes_at i r f) &&
  forallb (fun a => negb (insideZ a (reads_at i r f))) (writes_at j r f) &&
  forallb (fun a => negb (in_pair start i j a)) (reads_at i r f ++ writes_at i r f ++ reads_at j r f ++ writes_at j r f).
Lemma inside_no x l : negb (inside x l) = true -> ~ In x l.
Proof. unfold inside. destruct (in_dec _ x l); [discriminate|]. intros _. assumption. Qed.
Lemma insideZ_no x l : negb (insideZ x l) = true -> ~ In x l.
Proof. unfold insideZ. destruct (in_dec _ x l); [discriminate|]. intros _. assumption. Qed.
Lemma unrelatedb_sound r f start i j : unrelatedb r f start i j = true -> unrelated r f (pair_at start i j) i j.
Proof.
  unfold unrelatedb. rewrite !andb_true_iff, !forallb_forall. intros [[[[H1 H2] H3] H4] H5]. repeat split.
  - apply inside_no. specialize (H1 x H). apply andb_true_iff in H1. apply H1.
  - apply inside_no. specialize (H1 x H). apply andb_true_iff in H1. apply H1.
  - intros x H. apply inside_no, H2, H.
  - apply insideZ_no. specialize (H3 a H). apply andb_true_iff in H3. apply H3.
  - apply insideZ_no. specialize (H3 a H). apply andb_true_iff in H3. apply H3.
  - intros a H. apply insideZ_no, H4, H.
  - intros a H. specialize (H5 a H). unfold in_pair in H5. unfold pair_at, block. lia.
Qed.

(** Runs, checked by computation. *)
Fixpoint passes_of (p : profile) (start : Z) (i j : instruction) (visits : list bool) (cpu : mos6502 memory) : option (nat * nat * mos6502 memory) :=
  match visits with
  | [] => Some (0%nat, 0%nat, cpu)
  | true :: l =>
      if (reg_pc cpu =? start) && unrelatedb (regs_of cpu) (peek p (amap cpu)) start i j then
        match two_instructions p cpu with
        | Ok (n, cpu1) => match passes_of p start i j l cpu1 with Some (k, t, cpu') => Some (S (S k), (n + t)%nat, cpu') | None => None end
        | Panic => None
        end
      else None
  | false :: l =>
      let f := peek p (amap cpu) in let pc := reg_pc cpu in
      let b1 := f ((pc + 1) mod 65536) in let b2 := f ((pc + 2) mod 65536) in
      match decode (f pc) with
      | Some (mn, m, c) =>
          if (pc <=? 0xfffd) && (pc + length_of m <=? start) || (start + Z.of_nat (size i + size j) <=? pc) && (pc <=? 0xfffd) then
            if forallb (fun a => negb (in_pair start i j a)) (reads_of mn m (regs_of cpu) f b1 b2 ++ writes_of mn m (regs_of cpu) f b1 b2) then
              match observed_step p cpu with
              | Ok (n, cpu1) => match passes_of p start i j l cpu1 with Some (k, t, cpu') => Some (S k, (n + t)%nat, cpu') | None => None end
              | Panic => None
              end
            else None
          else None
      | None => None
      end
  end.
Lemma passes_of_sound p start i j visits : forall cpu k t cpu', plain_map (amap cpu) -> regs_ok (regs_of cpu) ->
  passes_of p start i j visits cpu = Some (k, t, cpu') -> passes p start i j k t cpu cpu'.
Proof.
  assert (Nx : forall cpu n cpu1, plain_map (amap cpu) -> regs_ok (regs_of cpu) -> observed_step p cpu = Ok (n, cpu1) ->
    plain_map (amap cpu1) /\ regs_ok (regs_of cpu1)).
  { intros cpu n cpu1 H1 H2 E. destruct (machine_step_inv p cpu n cpu1 H1 H2 E) as (e & Ee & Ra).
    destruct (machine_step p cpu e H1 H2 Ee Ra) as (c' & E' & _ & P' & R' & _). rewrite E in E'. injection E' as _ <-. auto. }
  induction visits as [|[|] l IH]; intros cpu k t cpu' Hp Hr E; cbn [passes_of] in E.
  - injection E as <- <- <-. constructor.
  - destruct ((reg_pc cpu =? start) && unrelatedb (regs_of cpu) (peek p (amap cpu)) start i j) eqn:B; [|discriminate].
    apply andb_true_iff in B. destruct B as [B1 B2]. apply Z.eqb_eq in B1. apply unrelatedb_sound in B2.
    destruct (two_instructions p cpu) as [[n cpu1]|] eqn:Et; [|discriminate].
    destruct (passes_of p start i j l cpu1) as [[[k1 t1] c1]|] eqn:Er; [|discriminate]. injection E as <- <- <-.
    eapply passes_pair; [exact B1|exact B2|exact Et|]. unfold two_instructions in Et.
    destruct (observed_step p cpu) as [[n1 x]|] eqn:E1; [|discriminate].
    destruct (observed_step p x) as [[n2 y]|] eqn:E2; [|discriminate]. injection Et as _ <-.
    destruct (Nx _ _ _ Hp Hr E1) as [P1 R1]. destruct (Nx _ _ _ P1 R1 E2) as [P2 R2]. apply IH; assumption.
  - cbv zeta in E. destruct (decode (peek p (amap cpu) (reg_pc cpu))) as [[[mn m] c]|] eqn:Ed; [|discriminate].
    destruct ((_ && _) || (_ && _)) eqn:B1 in E; [|discriminate]. destruct (forallb _ _) eqn:B2 in E; [|discriminate].
    destruct (observed_step p cpu) as [[n cpu1]|] eqn:E1; [|discriminate].
    destruct (passes_of p start i j l cpu1) as [[[k1 t1] c1]|] eqn:Er; [|discriminate]. injection E as <- <- <-.
    destruct (machine_bytes p cpu Hp) as [Rb Vb]. destruct (Nx _ _ _ Hp Hr E1) as [P1 R1].
    assert (Upc : 0 <= reg_pc cpu) by (destruct Hr as (_ & _ & _ & _ & K); unfold u16 in K; cbn [regs_of rPC] in K; lia).
    eapply passes_other; [| | |exact E1|apply IH; eassumption].
    + split; [exact Hr|]. split; [exact Rb|]. split; [exact Vb|]. split; [right; lia|]. split; [exact Ed|]. split; reflexivity.
    + intros d Hd. unfold pair_at, block. assert (length_of m <= 3) by (destruct m; cbn; lia).
      destruct (Z_lt_dec (reg_pc cpu + d) 65536); [rewrite Z.mod_small by lia; lia|].
      exfalso. lia.
    + rewrite forallb_forall in B2. intros a Ha. specialize (B2 a Ha). unfold in_pair in B2. unfold pair_at, block. lia.
Qed.

Lemma loop_plain o : plain_map (amap (loop_machine o)) /\ regs_ok (regs_of (loop_machine o)).
Proof. apply machine_plain. destruct o; vm_compute; reflexivity. Qed.

Lemma loop_differ p : differ_in_order p 0x8002 loop_sta loop_dex (loop_machine true) (loop_machine false).
Proof.
  destruct (loop_plain true) as [P1 R1], (loop_plain false) as [P2 R2].
  split; [exact P1|]. split; [exact P2|]. split; [exact R1|]. split; [reflexivity|]. split; [|split; [|split]].
  - intros a. unfold ram_at, loop_machine, machine. cbn [amap]. split; intros (e & [<-|[<-|[]]] & H2 & H3); try discriminate H3;
      (eexists; split; [left; reflexivity|]; split; [exact H2|exact H3]).
  - destruct p; vm_compute; repeat split; reflexivity.
  - destruct p; vm_compute; repeat split; reflexivity.
  - intros a Ha. unfold pair_at, block in Ha. change (Z.of_nat (size loop_sta + size loop_dex)) with 3 in Ha.
    destruct (Z_le_dec 0x8000 a) as [L1|L1]; [destruct (Z_le_dec a 0x8009) as [L2|L2]|].
    + assert (C : a = 0x8000 \/ a = 0x8001 \/ a = 0x8005 \/ a = 0x8006 \/ a = 0x8007 \/ a = 0x8008 \/ a = 0x8009) by lia.
      destruct C as [->|[->|[->|[->|[->|[->| ->]]]]]]; destruct p; vm_compute; reflexivity.
    + unfold peek, loop_machine, machine. cbn [amap am_read app]. unfold key_contains. cbn [range_lo range_hi length].
      replace ((0 <=? a) && (a <=? 0x3ff)) with false by lia.
      replace ((0x8000 <=? a) && (a <=? 0x8000 + Z.of_nat 10 - 1)) with false by lia. reflexivity.
    + unfold peek, loop_machine, machine. cbn [amap am_read app]. unfold key_contains. cbn [range_lo range_hi length].
      destruct ((0 <=? a) && (a <=? 0x3ff)); [reflexivity|].
      replace ((0x8000 <=? a) && (a <=? 0x8000 + Z.of_nat 10 - 1)) with false by lia. reflexivity.
Qed.

Example C99_loop_case : forall p, exists t cpu' cpu2',
  passes p 0x8002 loop_sta loop_dex 7 t (loop_machine true) cpu' /\
  runs p 7 t (loop_machine false) cpu2' /\ regs_of cpu2' = regs_of cpu' /\
  reg_pc cpu2' = 0x8007 /\ peek p (amap cpu2') 0x10 = 77.
Proof.
  intros p. destruct (loop_plain true) as [P1 R1].
  assert (E : match passes_of p 0x8002 loop_sta loop_dex [false; true; false; true; false] (loop_machine true) with
    | Some (k, t, c) => Nat.eqb k 7 && (reg_pc c =? 0x8007) && (peek p (amap c) 0x10 =? 77) | None => false end = true)
    by (destruct p; vm_compute; reflexivity).
  destruct (passes_of _ _ _ _ _ _) as [[[k t] c]|] eqn:Ep in E; [|discriminate].
  apply (passes_of_sound _ _ _ _ _ _ _ _ _ P1 R1) in Ep. rewrite !andb_true_iff in E. destruct E as [[E1 E2] E3].
  apply Nat.eqb_eq in E1. subst k.
  assert (I1 : instruction_ok loop_sta) by (split; [vm_compute; reflexivity|]; unfold u8; cbn; lia).
  assert (I2 : instruction_ok loop_dex) by (split; [vm_compute; reflexivity|]; unfold u8; cbn; lia).
  destruct (C99_exchange_in_program p 0x8002 loop_sta loop_dex 7 t (loop_machine true) c (loop_machine false) I1 I2 eq_refl eq_refl
    ltac:(lia) ltac:(vm_compute; discriminate) (loop_differ p) Ep) as (c2 & R2 & (_ & _ & _ & Rg & _ & _ & _ & Fr)).
  exists t, c, c2. split; [exact Ep|]. split; [exact R2|]. split; [exact Rg|]. split.
  - change (rPC (regs_of c2) = 0x8007). rewrite Rg. change (reg_pc c = 0x8007). lia.
  - rewrite Fr; [lia|]. unfold pair_at, block. lia.
Qed.
