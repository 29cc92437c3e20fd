(** C78-C80: what small machine-language programs do, for every placement,
    every operand and every length. *)
From Verif Require Import Base Arith ModelMap ModelRegs6502 ModelCpu6502 ModelStep ModelRun6502 SpecMap Link6502 ProofRun6502 ProofBus
  SpecInstr ProofInstr Demo6502 Properties6502Mem Spec6502 SpecProgram ProofProgram.

(** ** C78: counting and copying loops *)

(** DEX / BNE: from X = x the loop goes round x times (256 times from 0),
    takes exactly 5 cycles a round less one, one more per taken branch if the
    loop lies across a page boundary, and changes nothing but X, N, Z and PC. *)
Theorem C78_counting_loop : forall D (dev : Device D) p I ram (cpu : mos6502 D) A X Y S L P f,
  ram_bus p I ram -> machine_with p I cpu (mkRegs A X Y S L P) f ->
  0 <= L <= 0xfffc -> bytes_from f L dex_program ->
  exists cpu', runs p (2 * rounds X) (5 * rounds X - 1 + (rounds X - 1) * (if L / 256 =? (L + 1) / 256 then 0 else 1)) cpu cpu' /\
    machine_with p I cpu' (mkRegs A 0 Y S (L + 3) (nzf P 0)) f.
Proof.
  intros D dev p I ram cpu A X Y S L P f Hb M HL B.
  pose proof M as (_ & (_ & HX & _) & _). unfold u8 in HX. cbn [rX] in HX.
  assert (E : Z.of_nat (rounds X) mod 256 = X /\ (1 <= rounds X <= 256)%nat) by (unfold rounds; destruct (X =? 0) eqn:Q; lia).
  destruct E as [E1 E2]. pose proof (dex_loop p ram A Y S L f HL B (rounds X) E2 P) as X0. rewrite E1 in X0.
  exact (exec_runs p I ram _ _ _ _ _ _ cpu Hb X0 M).
Qed.

(** LDA s,X / STA d,X / DEX / BNE with X = x > 0 copies the x bytes after [s]
    to those after [d], also when the two overlap with [d] not below [s]. *)
Theorem C78_copying_loop : forall D (dev : Device D) p I ram (cpu : mos6502 D) A X Y S L P f s d,
  ram_bus p I ram -> machine_with p I cpu (mkRegs A X Y S L P) f ->
  0 <= L <= 0xfff6 -> bytes_from f L (copy_program s d) ->
  1 <= X -> 0 <= s -> s + X <= 0xffff -> 0 <= d -> d + X <= 0xffff ->
  s <= d \/ d + X <= s ->
  (forall q, d + 1 <= q <= d + X -> ram q /\ ~ (L <= q < L + 9)) ->
  exists t cpu' f', runs p (4 * Z.to_nat X) t cpu cpu' /\ (14 * Z.to_nat X - 1 <= t <= 16 * Z.to_nat X)%nat /\
    machine_with p I cpu' (mkRegs (f (s + 1)) 0 Y S (L + 9) (nzf P 0)) f' /\
    (forall i, 1 <= i <= X -> f' (d + i) = f (s + i)) /\
    (forall q, ~ (d + 1 <= q <= d + X) -> f' q = f q).
Proof.
  intros D dev p I ram cpu A X Y S L P f s d Hb M HL B H1 Hs Hs' Hd Hd' Ho Hr.
  pose proof M as (_ & (_ & HX & _) & _). unfold u8 in HX. cbn [rX] in HX.
  assert (EX : Z.of_nat (Z.to_nat X) = X) by lia.
  destruct (copy_loop p ram s d Y S L HL (Z.to_nat X)) with (f := f) (A := A) (P := P) as (t & f' & T & X0 & F);
    rewrite ?EX; try assumption; try lia.
  rewrite EX in X0, F. destruct (exec_runs p I ram _ _ _ _ _ _ cpu Hb X0 M) as (cpu' & R & M').
  exists t, cpu', f'. split; [exact R|]. split; [exact T|]. split; [exact M'|]. split.
  - intros i Hi. rewrite F. replace ((d + 1 <=? d + i) && (d + i <=? d + X)) with true by lia. f_equal. lia.
  - intros q Hq. rewrite F. replace ((d + 1 <=? q) && (q <=? d + X)) with false by lia. reflexivity.
Qed.

(** With X = 0 it copies a whole page of 256 bytes. *)
Theorem C78_copying_page : forall D (dev : Device D) p I ram (cpu : mos6502 D) A Y S L P f s d,
  ram_bus p I ram -> machine_with p I cpu (mkRegs A 0 Y S L P) f ->
  0 <= L <= 0xfff6 -> bytes_from f L (copy_program s d) ->
  0 <= s -> s + 255 <= 0xffff -> 0 <= d -> d + 255 <= 0xffff ->
  s + 255 < d \/ d + 255 < s ->
  (forall q, d <= q <= d + 255 -> ram q /\ ~ (L <= q < L + 9)) ->
  exists t cpu' f', runs p (4 * 256) t cpu cpu' /\ (14 * 256 - 1 <= t <= 16 * 256)%nat /\
    machine_with p I cpu' (mkRegs (f (s + 1)) 0 Y S (L + 9) (nzf P 0)) f' /\
    (forall i, 0 <= i <= 255 -> f' (d + i) = f (s + i)) /\
    (forall q, ~ (d <= q <= d + 255) -> f' q = f q).
Proof.
  intros D dev p I ram cpu A Y S L P f s d Hb M HL B Hs Hs' Hd Hd' Ho Hr.
  destruct (copy_page p ram s d Y S L f A P HL Hs Hd Hs' Hd' Ho Hr B) as (t & f' & T & X0 & F).
  destruct (exec_runs p I ram _ _ _ _ _ _ cpu Hb X0 M) as (cpu' & R & M').
  exists t, cpu', f'. split; [exact R|]. split; [exact T|]. split; [exact M'|]. split.
  - intros i Hi. rewrite F. replace ((d <=? d + i) && (d + i <=? d + 255)) with true by lia. f_equal. lia.
  - intros q Hq. rewrite F. replace ((d <=? q) && (q <=? d + 255)) with false by lia. reflexivity.
Qed.

(** ** C79: multi-byte addition and subtraction *)

(** The situation: [op_program] lies at PC, its result goes to RAM that holds
    neither the program nor a part of an operand still to be read. *)
Definition calculates {D} `{Device D} (p : profile) (I : address_map D -> Prop) (ram : Z -> Prop) (prog : list Z) (cpu : mos6502 D)
  (A X Y S L : Z) (P : processor_status) (f : Z -> Z) (a b d : Z) (n : nat) : Prop :=
  ram_bus p I ram /\ machine_with p I cpu (mkRegs A X Y S L P) f /\
  0 <= L /\ L + 1 + 9 * Z.of_nat n <= 0xfffe /\ bytes_from f L prog /\
  (forall q, d <= q < d + Z.of_nat n -> ram q /\ ~ (L <= q < L + 1 + 9 * Z.of_nat n)) /\
  0 <= a /\ a + Z.of_nat n <= 65536 /\ 0 <= b /\ b + Z.of_nat n <= 65536 /\
  ~ (a < d < a + Z.of_nat n) /\ ~ (b < d < b + Z.of_nat n).

(** The documented effect: the sum (difference) modulo 256^n. *)
Definition sum_right (f f' : Z -> Z) (a b d : Z) (n : nat) : Prop :=
  number f' d n = (number f a n + number f b n) mod 256 ^ Z.of_nat n.
Definition difference_right (f f' : Z -> Z) (a b d : Z) (n : nat) : Prop :=
  number f' d n = (number f a n - number f b n) mod 256 ^ Z.of_nat n.

(** CLC and n times LDA / ADC / STA.  Every byte is the sum of the two bytes;
    the whole is the sum of the numbers exactly when no byte but the last
    carries. *)
Theorem C79_addition_partial : forall D (dev : Device D) p I ram (cpu : mos6502 D) A X Y S L P f a b d n,
  calculates p I ram (add_program a b d n) cpu A X Y S L P f a b d n ->
  exists cpu' A' P' f', runs p (1 + 3 * n) (2 + 12 * n) cpu cpu' /\
    machine_with p I cpu' (mkRegs A' X Y S (L + 1 + 9 * Z.of_nat n) P') f' /\
    (forall i, 0 <= i < Z.of_nat n -> f' (d + i) = (f (a + i) + f (b + i)) mod 256) /\
    (forall q, ~ (d <= q < d + Z.of_nat n) -> f' q = f q) /\
    (sum_right f f' a b d n <-> (forall i, 0 <= i -> i + 1 < Z.of_nat n -> f (a + i) + f (b + i) < 256)).
Proof.
  intros D dev p I ram cpu A X Y S L P f a b d n (Hb & M & HL & HM & [B0 B] & Hd & Ha & Ma & Hbb & Mb & Na & Nb).
  pose proof (i_clc p ram A X Y S L P f ltac:(lia) B0) as X1.
  destruct (add_bytes p ram X Y S n a b d (L + 1) A (with_c P false) f) as (A' & P' & f' & X2 & N & Fr & Pw);
    [lia|lia|exact B|intros q Hq; destruct (Hd q Hq); (split; [assumption|lia])|exact Na|exact Nb|].
  destruct (exec_runs p I ram _ _ _ _ _ _ cpu Hb (exec_app _ _ _ _ _ _ _ _ X1 _ _ _ _ X2) M) as (cpu' & R & M').
  exists cpu', A', P', f'. split; [exact R|]. split; [exact M'|]. split; [exact Pw|]. split; [exact Fr|].
  unfold sum_right. rewrite N. apply emu_add_exact; try assumption. exact (machine_bytes p I ram cpu _ f Hb M).
Qed.

(** SEC and n times LDA / SBC / STA.  The whole is the difference of the
    numbers exactly when no byte but the last subtracts 0 without a borrow
    pending from the bytes below it. *)
Theorem C79_subtraction_partial : forall D (dev : Device D) p I ram (cpu : mos6502 D) A X Y S L P f a b d n,
  calculates p I ram (sub_program a b d n) cpu A X Y S L P f a b d n ->
  exists cpu' A' P' f', runs p (1 + 3 * n) (2 + 12 * n) cpu cpu' /\
    machine_with p I cpu' (mkRegs A' X Y S (L + 1 + 9 * Z.of_nat n) P') f' /\
    (forall q, ~ (d <= q < d + Z.of_nat n) -> f' q = f q) /\
    (difference_right f f' a b d n <->
     (forall i, (i + 1 < n)%nat -> f (b + Z.of_nat i) = 0 -> number f a i < number f b i)).
Proof.
  intros D dev p I ram cpu A X Y S L P f a b d n (Hb & M & HL & HM & [B0 B] & Hd & Ha & Ma & Hbb & Mb & Na & Nb).
  pose proof (i_sec p ram A X Y S L P f ltac:(lia) B0) as X1.
  destruct (sub_bytes p ram X Y S n a b d (L + 1) A (with_c P true) f) as (A' & P' & f' & X2 & N & Fr);
    [lia|lia|exact B|intros q Hq; destruct (Hd q Hq); (split; [assumption|lia])|exact Na|exact Nb|].
  destruct (exec_runs p I ram _ _ _ _ _ _ cpu Hb (exec_app _ _ _ _ _ _ _ _ X1 _ _ _ _ X2) M) as (cpu' & R & M').
  exists cpu', A', P', f'. split; [exact R|]. split; [exact M'|]. split; [exact Fr|].
  unfold difference_right. rewrite N. apply emu_sub_exact; try assumption. exact (machine_bytes p I ram cpu _ f Hb M).
Qed.

(** ** C80: counting with Y *)

(** The DEY / BNE loop leaves in the first round when X = 1, whatever Y is;
    otherwise it never leaves: no number of cycles makes [run] end anywhere
    but at the DEY or the BNE. *)
Theorem C80_y_loop_partial : forall D (dev : Device D) p I ram (cpu : mos6502 D) A X Y S L P f,
  ram_bus p I ram -> machine_with p I cpu (mkRegs A X Y S L P) f ->
  0 <= L <= 0xfffc -> bytes_from f L dey_program ->
  (X = 1 -> exists cpu', runs p 2 4 cpu cpu' /\
     machine_with p I cpu' (mkRegs A 1 ((Y - 1) mod 256) S (L + 3) (nzf P 0)) f) /\
  (X <> 1 ->
     (forall k, exists t cpu', runs p k t cpu cpu') /\
     (forall n, exists cpu', run p cpu n = Ok (Ready cpu') /\ (reg_pc cpu' = L \/ reg_pc cpu' = L + 1))).
Proof.
  intros D dev p I ram cpu A X Y S L P f Hb M HL B.
  pose proof M as (_ & (_ & HX & HY & _) & _). unfold u8 in HX, HY. cbn [rX rY] in HX, HY. split.
  - intros ->. exact (exec_runs p I ram _ _ _ _ _ _ cpu Hb (dey_leaves p ram A Y S L P f HL B) M).
  - intros HX1.
    assert (K : forall k, exists t cpu', runs p k t cpu cpu' /\ (reg_pc cpu' = L \/ reg_pc cpu' = L + 1)).
    { intros k. destruct (dey_stays p ram A X Y S L P f HL B HX HX1 HY k) as (t & Y' & PC' & P' & Hp & X0).
      destruct (exec_runs p I ram _ _ _ _ _ _ cpu Hb X0 M) as (cpu' & R & (_ & _ & Er & _)). exists t, cpu'. split; [exact R|].
      assert (E : reg_pc cpu' = PC') by (change (rPC (regs_of cpu') = PC'); rewrite Er; reflexivity). rewrite E. exact Hp. }
    split; [intros k; destruct (K k) as (t & cpu' & R & _); eauto|].
    intros n. destruct (run p cpu n) as [s|] eqn:E.
    + destruct s as [m cpu'|cpu'].
      * exfalso. rewrite run_go in E. destruct (go p n cpu); discriminate.
      * exists cpu'. split; [reflexivity|]. apply run_ready_iff in E. destruct E as (k & t & St & _).
        destruct (K k) as (t' & cpu2 & [St' _] & Hp). destruct (steps_det p k t cpu cpu' St t' cpu2 St') as [_ <-]. exact Hp.
    + exfalso. apply run_panic_iff in E. destruct E as (k & t & cpu' & St & _ & Ep).
      destruct (K (Datatypes.S k)) as (t' & cpu2 & [St' _] & _). rewrite <- (Nat.add_1_r k) in St'.
      assert (Q : forall k t cpu cpu' t' cpu2, steps p k t cpu cpu' -> steps p (k + 1) t' cpu cpu2 -> observed_step p cpu' = Panic -> False).
      { clear. induction k as [|k IH]; intros t cpu cpu' t' cpu2 S1 S2 Ep; inversion S1; subst; inversion S2; subst.
        - congruence.
        - match goal with H1 : observed_step p cpu = _, H2 : observed_step p cpu = _ |- _ => rewrite H1 in H2; injection H2 as <- <- end.
          eauto. }
      exact (Q _ _ _ _ _ _ St St' Ep).
Qed.

(** So the documented behaviour fails. *)
Definition y_loop_ends : Prop := forall p (cpu : mos6502 memory) A X Y S L P f,
  machine_with p (plain_with (fun _ => False)) cpu (mkRegs A X Y S L P) f ->
  0 <= L <= 0xfffc -> bytes_from f L dey_program ->
  exists t cpu', runs p (2 * rounds Y) t cpu cpu' /\ reg_pc cpu' = L + 3.

Definition y_machine : mos6502 memory := machine [] dey_program 0 0 5 0xff ps0.
Lemma y_machine_ok : machine_with Debug (plain_with (fun _ => False)) y_machine (mkRegs 0 0 5 0xff 0x8000 ps0) (peek Debug (amap y_machine)).
Proof.
  destruct (machine_plain [] dey_program 0 0 5 0xff ps0 eq_refl) as [Hp Hr].
  split; [split; [exact Hp|intros b []]|]. split; [exact Hr|]. split; reflexivity.
Qed.

Theorem C80_y_loop_refuted : ~ y_loop_ends.
Proof.
  intros T. assert (B : bytes_from (peek Debug (amap y_machine)) 0x8000 dey_program) by (repeat split; vm_compute; reflexivity).
  destruct (T Debug y_machine 0 0 5 0xff 0x8000 ps0 _ y_machine_ok ltac:(lia) B) as (t & cpu' & [St Hr] & Hp).
  destruct (C80_y_loop_partial memory _ Debug _ _ y_machine 0 0 5 0xff 0x8000 ps0 _ (plain_ram_bus Debug (fun _ => False)) y_machine_ok ltac:(lia) B) as [_ K].
  destruct (K ltac:(lia)) as [_ K2]. destruct (K2 t) as (cpu2 & Hr2 & Hp2). rewrite Hr in Hr2.
  assert (E : cpu' = cpu2) by congruence. subst cpu2. rewrite Hp in Hp2. clear -Hp2. lia.
Qed.

(** ** Concrete cases *)
Lemma demo_with p zp prog a x y sp ps : machine_fits zp prog a x y sp = true ->
  machine_with p (plain_with (fun b => 0 <= b <= 0x3ff)) (machine zp prog a x y sp ps) (mkRegs a x y sp 0x8000 ps)
    (bytes_at p zp prog a x y sp ps).
Proof.
  intros Hf. split; [exact (demo_bus zp prog a x y sp ps Hf)|]. split; [exact (proj2 (machine_plain zp prog a x y sp ps Hf))|].
  split; reflexivity.
Qed.

(** Five rounds of the counting loop. *)
Example C78_counting_case : exists cpu', runs Debug 10 24 (machine [] dex_program 1 5 2 0xff ps0) cpu' /\
  map (fun g => g cpu') [reg_acc; reg_x; reg_y; reg_sp; reg_pc] = [1; 0; 2; 0xff; 0x8003].
Proof.
  destruct (C78_counting_loop memory _ Debug _ _ _ _ _ _ _ _ _ _ (plain_ram_bus Debug _) (demo_with Debug [] dex_program 1 5 2 0xff ps0 eq_refl))
    as (cpu' & R & (_ & _ & E & _)); [lia|repeat split; vm_compute; reflexivity|].
  exists cpu'. split; [exact R|]. cbn [map]. destruct cpu'. unfold regs_of in E. cbn in E. injection E. intros. subst. reflexivity.
Qed.

(** Three bytes moved up by one, overlapping. *)
Definition copy_demo := machine [0; 11; 12; 13; 99] (copy_program 0 1) 0 3 0 0xff ps0.
Example C78_copying_case : exists t cpu', runs Debug 12 t copy_demo cpu' /\
  map (peek Debug (amap cpu')) [0; 1; 2; 3; 4; 5] = [0; 11; 11; 12; 13; 0].
Proof.
  destruct (C78_copying_loop memory _ Debug _ _ _ _ _ _ _ _ _ _ 0 1 (plain_ram_bus Debug _)
    (demo_with Debug [0; 11; 12; 13; 99] (copy_program 0 1) 0 3 0 0xff ps0 eq_refl)) as (t & cpu' & f' & R & _ & (_ & _ & _ & E) & C & F);
    [lia|repeat split; vm_compute; reflexivity|lia|lia|lia|lia|lia|lia|intros; lia|].
  exists t, cpu'. split; [exact R|]. cbn [map]. rewrite !E by (unfold u16; lia).
  rewrite (F 0), (F 1), (F 5) by lia. change (f' 2) with (f' (1 + 1)). change (f' 3) with (f' (1 + 2)). change (f' 4) with (f' (1 + 3)).
  rewrite !C by lia. vm_compute. reflexivity.
Qed.

(** 0x1234 + 0x0111 is right, 0x00ff + 0x0001 gives 0; 0x0534 - 0x0111 is right,
    0x0500 - 0x0100 gives 0x0300. *)
Definition word_at (p : profile) (cpu : mos6502 memory) (a : Z) : Z := number (peek p (amap cpu)) a 2.
Definition result_of (prog : list Z) (t : nat) (zp : list Z) : option Z :=
  match run Debug (machine zp prog 0 0 0 0xff ps0) t with Ok (Ready cpu) => Some (word_at Debug cpu 4) | _ => None end.
Example C79_cases :
  result_of (add_program 0 2 4 2) 26 [0x34; 0x12; 0x11; 0x01] = Some 0x1345 /\
  result_of (add_program 0 2 4 2) 26 [0xff; 0x00; 0x01; 0x00] = Some 0 /\
  result_of (sub_program 0 2 4 2) 26 [0x34; 0x05; 0x11; 0x01] = Some 0x0423 /\
  result_of (sub_program 0 2 4 2) 26 [0x00; 0x05; 0x00; 0x01] = Some 0x0300.
Proof. repeat split; vm_compute; reflexivity. Qed.

Definition carry_machine : mos6502 memory := machine [0xff; 0x00; 0x01; 0x00] (add_program 0 2 4 2) 0 0 0 0xff ps0.
Lemma carry_machine_calculates : calculates Debug (plain_with (fun b => 0 <= b <= 0x3ff)) (fun b => 0 <= b <= 0x3ff) (add_program 0 2 4 2)
    carry_machine 0 0 0 0xff 0x8000 ps0 (peek Debug (amap carry_machine)) 0 2 4 2.
Proof.
  split; [apply plain_ram_bus|]. split; [exact (demo_with Debug [0xff; 0x00; 0x01; 0x00] (add_program 0 2 4 2) 0 0 0 0xff ps0 eq_refl)|].
  split; [lia|]. split; [lia|]. split; [repeat split; vm_compute; reflexivity|]. split; [intros; lia|]. repeat (split; [lia|]). lia.
Qed.
Definition borrow_machine : mos6502 memory := machine [0x00; 0x05; 0x00; 0x01] (sub_program 0 2 4 2) 0 0 0 0xff ps0.
Lemma borrow_machine_calculates : calculates Debug (plain_with (fun b => 0 <= b <= 0x3ff)) (fun b => 0 <= b <= 0x3ff) (sub_program 0 2 4 2)
    borrow_machine 0 0 0 0xff 0x8000 ps0 (peek Debug (amap borrow_machine)) 0 2 4 2.
Proof.
  split; [apply plain_ram_bus|]. split; [exact (demo_with Debug [0x00; 0x05; 0x00; 0x01] (sub_program 0 2 4 2) 0 0 0 0xff ps0 eq_refl)|].
  split; [lia|]. split; [lia|]. split; [repeat split; vm_compute; reflexivity|]. split; [intros; lia|]. repeat (split; [lia|]). lia.
Qed.

(** The documented results fail: 0x00ff + 0x0001 and 0x0500 - 0x0100. *)
Definition addition_right : Prop := forall p (cpu : mos6502 memory) A X Y S L P f a b d n,
  calculates p (plain_with (fun b => 0 <= b <= 0x3ff)) (fun b => 0 <= b <= 0x3ff) (add_program a b d n) cpu A X Y S L P f a b d n ->
  exists cpu' r' f', runs p (1 + 3 * n) (2 + 12 * n) cpu cpu' /\
    machine_with p (plain_with (fun b => 0 <= b <= 0x3ff)) cpu' r' f' /\ sum_right f f' a b d n.
Definition subtraction_right : Prop := forall p (cpu : mos6502 memory) A X Y S L P f a b d n,
  calculates p (plain_with (fun b => 0 <= b <= 0x3ff)) (fun b => 0 <= b <= 0x3ff) (sub_program a b d n) cpu A X Y S L P f a b d n ->
  exists cpu' r' f', runs p (1 + 3 * n) (2 + 12 * n) cpu cpu' /\
    machine_with p (plain_with (fun b => 0 <= b <= 0x3ff)) cpu' r' f' /\ difference_right f f' a b d n.

Lemma runs_value zp prog v t k cpu' f' (I : address_map memory -> Prop) r' : result_of prog t zp = Some v ->
  runs Debug k t (machine zp prog 0 0 0 0xff ps0) cpu' -> machine_with Debug I cpu' r' f' -> number f' 4 2 = v.
Proof.
  intros E [_ R] (_ & _ & _ & F). unfold result_of in E. rewrite R in E. unfold word_at in E.
  assert (Q : number (peek Debug (amap cpu')) 4 2 = v) by congruence. rewrite <- Q. apply number_ext.
  intros q Hq. symmetry. apply F. unfold u16. lia.
Qed.
Theorem C79_addition_refuted : ~ addition_right.
Proof.
  intros T. destruct (T _ _ _ _ _ _ _ _ _ _ _ _ _ carry_machine_calculates) as (cpu' & r' & f' & R & M & E).
  unfold sum_right in E. rewrite (runs_value [0xff; 0x00; 0x01; 0x00] (add_program 0 2 4 2) 0 26 7 cpu' f' _ r' ltac:(vm_compute; reflexivity) R M) in E.
  vm_compute in E. discriminate.
Qed.
Theorem C79_subtraction_refuted : ~ subtraction_right.
Proof.
  intros T. destruct (T _ _ _ _ _ _ _ _ _ _ _ _ _ borrow_machine_calculates) as (cpu' & r' & f' & R & M & E).
  unfold difference_right in E. rewrite (runs_value [0x00; 0x05; 0x00; 0x01] (sub_program 0 2 4 2) 0x0300 26 7 cpu' f' _ r' ltac:(vm_compute; reflexivity) R M) in E.
  vm_compute in E. discriminate.
Qed.

(** The loop on Y after 1000 cycles. *)
Example C80_case : match run Debug y_machine 1000 with Ok (Ready cpu) => reg_pc cpu | _ => 0 end = 0x8000.
Proof. vm_compute. reflexivity. Qed.

Print Assumptions C78_counting_loop.
Print Assumptions C78_copying_loop.
Print Assumptions C78_copying_page.
Print Assumptions C79_addition_partial.
Print Assumptions C79_addition_refuted.
Print Assumptions C79_subtraction_partial.
Print Assumptions C79_subtraction_refuted.
Print Assumptions C80_y_loop_partial.
Print Assumptions C80_y_loop_refuted.
