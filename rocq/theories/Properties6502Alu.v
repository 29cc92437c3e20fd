(** Properties C14-C21: arithmetic, logic, shifts, counters, branches, program
    counter. *)
From Verif Require Import Base Arith ModelMap ModelRegs6502 ModelCpu6502 ModelOperand
  ModelIsa6502 ModelRun6502 SpecMap ProofMap Link6502 ProofOperand ProofStep6502 ProofRun6502 ProofBus
  SpecInstr ProofInstr Demo6502.
From Verif Require Import Spec6502.

Ltac demo := apply machine_about; [reflexivity|vm_compute; reflexivity|reflexivity|reflexivity].

Section Alu.
Context {D : Type} `{Device D}.
Implicit Types (cpu : mos6502 D) (m : addressing_mode) (c : nat).

(** ** C14 ADC *)

(** The documented result of ADC with operand [v]. *)
Definition after_adc cpu m (v : Z) : mos6502 D :=
  let '(r, cy, ov) := doc_adc (reg_acc cpu) v (carry_in (reg_ps cpu)) in
  mkMos6502 (amap cpu) r (reg_x cpu) (reg_y cpu) (reg_sp cpu) (following cpu m)
    (nz (overflow_is (carry_is (reg_ps cpu) cy) ov) r).

(** What the emulator does: the incoming carry is not added. *)
Theorem C14_adc_exact : forall p cpu rd m c b1 b2 v,
  about_to p cpu rd Adc m c b1 b2 -> operand_is p cpu rd m b1 b2 v ->
  becomes p cpu
    (mkMos6502 (amap cpu) ((reg_acc cpu + v) mod 256) (reg_x cpu) (reg_y cpu) (reg_sp cpu)
       (following cpu m)
       (nz (overflow_is (carry_is (reg_ps cpu) (255 <? reg_acc cpu + v))
              (emulated_overflow (reg_acc cpu) v (ps_carry (reg_ps cpu))))
          ((reg_acc cpu + v) mod 256))).
Proof.
  intros p cpu rd m c b1 b2 v Ha Ho.
  assert (K := becomes_read p cpu rd _ m c b1 b2 v _ Ha eq_refl Ho).
  destruct (about_regs _ _ _ _ _ _ _ _ Ha) as (HA & _).
  assert (Hv := operand_is_u8 _ _ _ _ _ _ _ _ _ Ha Ho).
  replace (255 <? reg_acc cpu + v) with (256 <=? reg_acc cpu + v) by lia.
  replace (emulated_overflow _ _ _) with
    ((negb (negative (reg_acc cpu)) && negb (negative v) && ps_carry (reg_ps cpu))
     || (negative (reg_acc cpu) && negative v && negb (ps_carry (reg_ps cpu)))); [exact K|].
  unfold emulated_overflow, negative. destruct (ps_carry (reg_ps cpu)); lia.
Qed.

(** The documented result is reached exactly when the carry is clear and the
    signed sum of two operands of equal sign either does not overflow (both
    positive) or does (both negative), or the signs differ. *)
Theorem C14_adc_documented_iff : forall p cpu rd m c b1 b2 v,
  about_to p cpu rd Adc m c b1 b2 -> operand_is p cpu rd m b1 b2 v ->
  (becomes p cpu (after_adc cpu m v) <->
   ps_carry (reg_ps cpu) = false /\
   ~ (reg_acc cpu < 128 /\ v < 128 /\ 128 <= reg_acc cpu + v) /\
   ~ (128 <= reg_acc cpu /\ 128 <= v /\ 384 <= reg_acc cpu + v)).
Proof.
  intros p cpu rd m c b1 b2 v Ha Ho.
  rewrite (becomes_iff _ _ _ _ (C14_adc_exact p cpu rd m c b1 b2 v Ha Ho)).
  destruct (about_regs _ _ _ _ _ _ _ _ Ha) as (HA & _).
  assert (Hv := operand_is_u8 _ _ _ _ _ _ _ _ _ Ha Ho).
  unfold after_adc, doc_adc, emulated_overflow, carry_in, u8, signed in *.
  destruct (ps_carry (reg_ps cpu)) eqn:Ec.
  - split.
    + intros E. apply (f_equal reg_acc) in E. cbn [reg_acc] in E. exfalso. lia.
    + intros [E _]. discriminate.
  - rewrite !Z.add_0_r. split.
    + intros E. apply (f_equal (fun s => ps_overflow (reg_ps s))) in E.
      cbn [reg_ps nz overflow_is carry_is ps_overflow] in E.
      split; [reflexivity|].
      destruct (reg_acc cpu <? 128) eqn:?, (v <? 128) eqn:?; lia.
    + intros (_ & H1 & H2). f_equal. f_equal. f_equal.
      destruct (reg_acc cpu <? 128) eqn:?, (v <? 128) eqn:?; lia.
Qed.

(** With the carry clear everything but V is as documented. *)
Theorem C14_adc_partial : forall p cpu rd m c b1 b2 v,
  about_to p cpu rd Adc m c b1 b2 -> operand_is p cpu rd m b1 b2 v ->
  ps_carry (reg_ps cpu) = false ->
  exists ov, becomes p cpu
    (let doc := after_adc cpu m v in
     mkMos6502 (amap doc) (reg_acc doc) (reg_x doc) (reg_y doc) (reg_sp doc) (reg_pc doc)
       (overflow_is (reg_ps doc) ov)).
Proof.
  intros p cpu rd m c b1 b2 v Ha Ho Hc. eexists.
  assert (K := C14_adc_exact p cpu rd m c b1 b2 v Ha Ho).
  unfold after_adc, doc_adc, carry_in. rewrite Hc, !Z.add_0_r. exact K.
Qed.

(** ** C15 SBC *)
Definition after_sbc cpu m (v : Z) : mos6502 D :=
  let '(r, cy, ov) := doc_sbc (reg_acc cpu) v (carry_in (reg_ps cpu)) in
  mkMos6502 (amap cpu) r (reg_x cpu) (reg_y cpu) (reg_sp cpu) (following cpu m)
    (nz (overflow_is (carry_is (reg_ps cpu) cy) ov) r).

Theorem C15_sbc_exact : forall p cpu rd m c b1 b2 v,
  about_to p cpu rd Sbc m c b1 b2 -> operand_is p cpu rd m b1 b2 v ->
  becomes p cpu
    (let a := reg_acc cpu in
     let r := (a - v - (1 - carry_in (reg_ps cpu))) mod 256 in
     let m' := (255 - v + carry_in (reg_ps cpu)) mod 256 in
     mkMos6502 (amap cpu) r (reg_x cpu) (reg_y cpu) (reg_sp cpu) (following cpu m)
       (nz (overflow_is
              (carry_is (reg_ps cpu)
                 (if ps_carry (reg_ps cpu) then negb (v =? 0) && (v <=? a) else v + 1 <=? a))
              (emulated_overflow a m' (ps_carry (reg_ps cpu)))) r)).
Proof.
  intros p cpu rd m c b1 b2 v Ha Ho.
  assert (K := becomes_read p cpu rd _ m c b1 b2 v _ Ha eq_refl Ho).
  destruct (about_regs _ _ _ _ _ _ _ _ Ha) as (HA & _).
  assert (Hv := operand_is_u8 _ _ _ _ _ _ _ _ _ Ha Ho).
  unfold u8 in *. cbv zeta. unfold carry_in.
  match goal with |- becomes _ _ ?t => match type of K with becomes _ _ ?s => replace t with s end end;
    [exact K|].
  unfold spec_sbc, advance, cpu_with. cbn -[Z.add Z.sub Z.mul Z.modulo Z.leb Z.ltb Z.eqb].
  unfold emulated_overflow, negative, nz, overflow_is, carry_is. cbn -[Z.add Z.sub Z.mul Z.modulo Z.leb Z.ltb Z.eqb].
  unfold following. destruct (ps_carry (reg_ps cpu)) eqn:Ec.
  - replace (1 - 1) with 0 by lia. f_equal. f_equal; lia.
  - replace (1 - 0) with 1 by lia. f_equal. f_equal; lia.
Qed.

(** The accumulator, N and Z are always as documented; the carry is unless
    the carry is set and the operand is 0. *)
Theorem C15_sbc_partial : forall p cpu rd m c b1 b2 v,
  about_to p cpu rd Sbc m c b1 b2 -> operand_is p cpu rd m b1 b2 v ->
  exists cy ov, becomes p cpu
    (let doc := after_sbc cpu m v in
     mkMos6502 (amap doc) (reg_acc doc) (reg_x doc) (reg_y doc) (reg_sp doc) (reg_pc doc)
       (overflow_is (carry_is (reg_ps doc) cy) ov)) /\
    (cy = ps_carry (reg_ps (after_sbc cpu m v)) <-> ~ (ps_carry (reg_ps cpu) = true /\ v = 0)).
Proof.
  intros p cpu rd m c b1 b2 v Ha Ho. do 2 eexists.
  assert (K := C15_sbc_exact p cpu rd m c b1 b2 v Ha Ho).
  destruct (about_regs _ _ _ _ _ _ _ _ Ha) as (HA & _).
  assert (Hv := operand_is_u8 _ _ _ _ _ _ _ _ _ Ha Ho).
  split; [exact K|]. unfold after_sbc, doc_sbc, carry_in, u8 in *. cbn [reg_ps nz overflow_is carry_is ps_carry].
  destruct (ps_carry (reg_ps cpu)); lia.
Qed.

Theorem C15_sbc_documented_iff : forall p cpu rd m c b1 b2 v,
  about_to p cpu rd Sbc m c b1 b2 -> operand_is p cpu rd m b1 b2 v ->
  (becomes p cpu (after_sbc cpu m v) <->
   ~ (ps_carry (reg_ps cpu) = true /\ v = 0) /\
   emulated_overflow (reg_acc cpu) ((255 - v + carry_in (reg_ps cpu)) mod 256) (ps_carry (reg_ps cpu))
   = snd (doc_sbc (reg_acc cpu) v (carry_in (reg_ps cpu)))).
Proof.
  intros p cpu rd m c b1 b2 v Ha Ho.
  rewrite (becomes_iff _ _ _ _ (C15_sbc_exact p cpu rd m c b1 b2 v Ha Ho)).
  destruct (about_regs _ _ _ _ _ _ _ _ Ha) as (HA & _).
  assert (Hv := operand_is_u8 _ _ _ _ _ _ _ _ _ Ha Ho).
  unfold after_sbc, doc_sbc, u8 in *. cbv zeta. cbn [snd].
  set (eo := emulated_overflow _ _ _). set (dov := (_ || _)%bool).
  split.
  - intros E.
    assert (E1 := f_equal (fun s => ps_carry (reg_ps s)) E).
    assert (E2 := f_equal (fun s => ps_overflow (reg_ps s)) E).
    cbn [reg_ps nz overflow_is carry_is ps_overflow ps_carry] in E1, E2. split; [|exact E2].
    intros [Hc ->]. rewrite Hc in E1. unfold carry_in in E1. rewrite Hc in E1. lia.
  - intros [H1 H2]. rewrite H2. f_equal. f_equal. f_equal.
    f_equal. unfold carry_in. destruct (ps_carry (reg_ps cpu)); lia.
Qed.

(** The same as arithmetic on the operands. With the carry set: the operand is
    not 0, a non-negative A minus a negative operand overflows and the operand
    is not 128, a negative A minus a positive operand does not overflow. With
    the carry clear it is the other way round. *)
Theorem C15_sbc_documented_cases : forall p cpu rd m c b1 b2 v,
  about_to p cpu rd Sbc m c b1 b2 -> operand_is p cpu rd m b1 b2 v ->
  let a := reg_acc cpu in
  (becomes p cpu (after_sbc cpu m v) <->
   if ps_carry (reg_ps cpu)
   then v <> 0 /\ (a < 128 -> 128 <= v -> v <= a + 128 /\ v <> 128) /\
        (128 <= a -> v < 128 -> v + 128 <= a)
   else (a < 128 -> 128 <= v -> a + 128 <= v) /\
        (128 <= a -> v < 128 -> a <= v + 128)).
Proof.
  intros p cpu rd m c b1 b2 v Ha Ho a.
  rewrite (C15_sbc_documented_iff p cpu rd m c b1 b2 v Ha Ho).
  destruct (about_regs _ _ _ _ _ _ _ _ Ha) as (HA & _).
  assert (Hv := operand_is_u8 _ _ _ _ _ _ _ _ _ Ha Ho).
  unfold doc_sbc, emulated_overflow, carry_in, signed, u8 in *. cbn [snd].
  fold a. fold a in HA. clearbody a. clear -HA Hv. destruct (ps_carry (reg_ps cpu)).
  - destruct (a <? 128) eqn:E1, (v <? 128) eqn:E2; lia.
  - destruct (a <? 128) eqn:E1, (v <? 128) eqn:E2; lia.
Qed.

(** ** C16 compares *)
(** Documented result of comparing register value [r] with operand [v]. *)
Definition after_compare cpu m (r v : Z) : mos6502 D :=
  mkMos6502 (amap cpu) (reg_acc cpu) (reg_x cpu) (reg_y cpu) (reg_sp cpu) (following cpu m)
    (nz (carry_is (reg_ps cpu) (v <=? r)) ((r - v) mod 256)).

(** The register a compare instruction looks at. *)
Definition compared (mn : mnemonic) cpu : option Z :=
  match mn with Cmp => Some (reg_acc cpu) | Cpx => Some (reg_x cpu) | Cpy => Some (reg_y cpu) | _ => None end.

Theorem C16_compare_exact : forall p cpu rd mn m c b1 b2 v r,
  about_to p cpu rd mn m c b1 b2 -> operand_is p cpu rd m b1 b2 v -> compared mn cpu = Some r ->
  becomes p cpu
    (mkMos6502 (amap cpu) (reg_acc cpu) (reg_x cpu) (reg_y cpu) (reg_sp cpu) (following cpu m)
       (nz (carry_is (reg_ps cpu)
              (if (r =? 0) && (1 <=? v) && (v <=? 127) then true
               else if (v =? 0) && (1 <=? r) && (r <=? 127) then false
               else v <=? r))
          ((r - v) mod 256))).
Proof.
  intros p cpu rd mn m c b1 b2 v r Ha Ho Hc.
  destruct (about_regs _ _ _ _ _ _ _ _ Ha) as (HA & HX & HY & _).
  assert (Hv := operand_is_u8 _ _ _ _ _ _ _ _ _ Ha Ho).
  assert (R : u8 r -> (compare_rank v <=? compare_rank r) =
    (if (r =? 0) && (1 <=? v) && (v <=? 127) then true
     else if (v =? 0) && (1 <=? r) && (r <=? 127) then false else v <=? r)).
  { intros Hr. unfold compare_rank, u8 in *.
    destruct ((r =? 0) && (1 <=? v) && (v <=? 127)) eqn:?,
      ((v =? 0) && (1 <=? r) && (r <=? 127)) eqn:?, (v =? 0) eqn:?, (r =? 0) eqn:?,
      (v <? 128) eqn:?, (r <? 128) eqn:?; lia. }
  destruct mn; cbn in Hc; try discriminate; injection Hc as <-; rewrite <- R by assumption;
    exact (becomes_read p cpu rd _ m c b1 b2 v _ Ha eq_refl Ho).
Qed.

(** Documented except when exactly one operand is 0 and the other 1..127. *)
Theorem C16_compare_documented_iff : forall p cpu rd mn m c b1 b2 v r,
  about_to p cpu rd mn m c b1 b2 -> operand_is p cpu rd m b1 b2 v -> compared mn cpu = Some r ->
  (becomes p cpu (after_compare cpu m r v) <->
   ~ (r = 0 /\ 1 <= v <= 127) /\ ~ (v = 0 /\ 1 <= r <= 127)).
Proof.
  intros p cpu rd mn m c b1 b2 v r Ha Ho Hc.
  rewrite (becomes_iff _ _ _ _ (C16_compare_exact p cpu rd mn m c b1 b2 v r Ha Ho Hc)).
  destruct (about_regs _ _ _ _ _ _ _ _ Ha) as (HA & HX & HY & _).
  assert (Hv := operand_is_u8 _ _ _ _ _ _ _ _ _ Ha Ho).
  assert (Hr : u8 r) by (destruct mn; cbn in Hc; try discriminate; injection Hc as <-; assumption).
  unfold after_compare, u8 in *. split.
  - intros E. injection E as E.
    destruct ((r =? 0) && (1 <=? v) && (v <=? 127)) eqn:?,
      ((v =? 0) && (1 <=? r) && (r <=? 127)) eqn:?; lia.
  - intros E. f_equal. f_equal. f_equal.
    destruct ((r =? 0) && (1 <=? v) && (v <=? 127)) eqn:?,
      ((v =? 0) && (1 <=? r) && (r <=? 127)) eqn:?; lia.
Qed.

(** Always: only the flags C, Z and N and the program counter change, and Z
    and N are as documented. *)
Theorem C16_compare_partial : forall p cpu rd mn m c b1 b2 v r,
  about_to p cpu rd mn m c b1 b2 -> operand_is p cpu rd m b1 b2 v -> compared mn cpu = Some r ->
  exists cy, becomes p cpu
    (mkMos6502 (amap cpu) (reg_acc cpu) (reg_x cpu) (reg_y cpu) (reg_sp cpu) (following cpu m)
       (mkPs cy (r =? v) (ps_interrupt_disable (reg_ps cpu)) (ps_decimal (reg_ps cpu))
          (ps_brk (reg_ps cpu)) (ps_unused (reg_ps cpu)) (ps_overflow (reg_ps cpu))
          (128 <=? (r - v) mod 256))).
Proof.
  intros p cpu rd mn m c b1 b2 v r Ha Ho Hc.
  assert (K := C16_compare_exact p cpu rd mn m c b1 b2 v r Ha Ho Hc).
  destruct (about_regs _ _ _ _ _ _ _ _ Ha) as (HA & HX & HY & _).
  assert (Hv := operand_is_u8 _ _ _ _ _ _ _ _ _ Ha Ho).
  assert (Hr : u8 r) by (destruct mn; cbn in Hc; try discriminate; injection Hc as <-; assumption).
  eexists. replace (r =? v) with ((r - v) mod 256 =? 0) by (unfold u8 in *; lia). exact K.
Qed.

(** ** C17 logic *)
Theorem C17_and : forall p cpu rd m c b1 b2 v,
  about_to p cpu rd And m c b1 b2 -> operand_is p cpu rd m b1 b2 v ->
  becomes p cpu (mkMos6502 (amap cpu) (Z.land (reg_acc cpu) v) (reg_x cpu) (reg_y cpu) (reg_sp cpu)
                   (following cpu m) (nz (reg_ps cpu) (Z.land (reg_acc cpu) v))).
Proof. intros p cpu rd m c b1 b2 v Ha Ho. exact (becomes_read p cpu rd _ m c b1 b2 v _ Ha eq_refl Ho). Qed.

Theorem C17_ora : forall p cpu rd m c b1 b2 v,
  about_to p cpu rd Ora m c b1 b2 -> operand_is p cpu rd m b1 b2 v ->
  becomes p cpu (mkMos6502 (amap cpu) (Z.lor (reg_acc cpu) v) (reg_x cpu) (reg_y cpu) (reg_sp cpu)
                   (following cpu m) (nz (reg_ps cpu) (Z.lor (reg_acc cpu) v))).
Proof. intros p cpu rd m c b1 b2 v Ha Ho. exact (becomes_read p cpu rd _ m c b1 b2 v _ Ha eq_refl Ho). Qed.

Theorem C17_eor : forall p cpu rd m c b1 b2 v,
  about_to p cpu rd Eor m c b1 b2 -> operand_is p cpu rd m b1 b2 v ->
  becomes p cpu (mkMos6502 (amap cpu) (Z.lxor (reg_acc cpu) v) (reg_x cpu) (reg_y cpu) (reg_sp cpu)
                   (following cpu m) (nz (reg_ps cpu) (Z.lxor (reg_acc cpu) v))).
Proof. intros p cpu rd m c b1 b2 v Ha Ho. exact (becomes_read p cpu rd _ m c b1 b2 v _ Ha eq_refl Ho). Qed.

Theorem C17_bit : forall p cpu rd m c b1 b2 v,
  about_to p cpu rd Bit m c b1 b2 -> operand_is p cpu rd m b1 b2 v ->
  becomes p cpu (mkMos6502 (amap cpu) (reg_acc cpu) (reg_x cpu) (reg_y cpu) (reg_sp cpu)
                   (following cpu m)
                   (let s := reg_ps cpu in
                    mkPs (ps_carry s) (Z.land (reg_acc cpu) v =? 0) (ps_interrupt_disable s)
                      (ps_decimal s) (ps_brk s) (ps_unused s) (Z.testbit v 6) (Z.testbit v 7))).
Proof. intros p cpu rd m c b1 b2 v Ha Ho. exact (becomes_read p cpu rd _ m c b1 b2 v _ Ha eq_refl Ho). Qed.

(** ** C18 shifts and rotates *)
(** New byte and carry out of each instruction, as the data sheet has it. *)
Definition shifted (mn : mnemonic) (cy : bool) (v : Z) : option (Z * bool) :=
  match mn with
  | Asl => Some ((2 * v) mod 256, 128 <=? v)
  | Lsr => Some (v / 2, Z.odd v)
  | Rol => Some ((2 * v + (if cy then 1 else 0)) mod 256, 128 <=? v)
  | Ror => Some (v / 2 + (if cy then 128 else 0), Z.odd v)
  | _ => None
  end.

Lemma odd_mod2 v : Z.odd v = (v mod 2 =? 1).
Proof. rewrite Zmod_odd. destruct (Z.odd v); reflexivity. Qed.

Lemma shifted_spec mn m c p r rd b1 b2 :
  shifted mn (ps_carry (rP r)) 0 <> None ->
  exists f, execute p mn m c r rd b1 b2 = modify_op p m r rd b1 b2 c f /\
    forall v v' cy', u8 v -> shifted mn (ps_carry (rP r)) v = Some (v', cy') ->
      f r v = (v', withP r (nz (carry_is (rP r) cy') v')).
Proof.
  intros Hn. destruct mn; cbn [shifted] in Hn; try congruence; clear Hn.
  - eexists. split; [reflexivity|]. intros v v' cy' Hv E. injection E as <- <-. reflexivity.
  - eexists. split; [reflexivity|]. intros v v' cy' Hv E. injection E as <- <-.
    rewrite odd_mod2. reflexivity.
  - eexists. split; [reflexivity|]. intros v v' cy' Hv E. injection E as <- <-.
    unfold shift_with, spec_rol, bit.
    assert (E : (2 * v) mod 256 + (if ps_carry (rP r) then 1 else 0)
              = (2 * v + (if ps_carry (rP r) then 1 else 0)) mod 256)
      by (unfold u8 in Hv; destruct (ps_carry (rP r)); lia).
    rewrite E. reflexivity.
  - eexists. split; [reflexivity|]. intros v v' cy' Hv E. injection E as <- <-.
    unfold shift_with, spec_ror, bit. rewrite odd_mod2. reflexivity.
Qed.

Lemma shifted_any mn cy v : shifted mn cy v <> None -> forall w, shifted mn cy w <> None.
Proof. destruct mn; cbn; congruence. Qed.

Theorem C18_shift_accumulator : forall p cpu rd mn c b1 b2 v' cy',
  about_to p cpu rd mn Accumulator c b1 b2 ->
  shifted mn (ps_carry (reg_ps cpu)) (reg_acc cpu) = Some (v', cy') ->
  becomes p cpu (mkMos6502 (amap cpu) v' (reg_x cpu) (reg_y cpu) (reg_sp cpu)
                   (following cpu Accumulator) (nz (carry_is (reg_ps cpu) cy') v')).
Proof.
  intros p cpu rd mn c b1 b2 v' cy' Ha Hs.
  destruct (shifted_spec mn Accumulator c p (regs_of cpu) rd b1 b2) as (f & He & Hf).
  { apply (shifted_any _ _ (reg_acc cpu)). cbn. rewrite Hs. discriminate. }
  assert (K := becomes_modify_acc p cpu rd mn c b1 b2 f Ha He).
  destruct (about_regs _ _ _ _ _ _ _ _ Ha) as (HA & _).
  rewrite (Hf (reg_acc cpu) v' cy' HA Hs) in K. exact K.
Qed.

Theorem C18_shift_memory : forall p cpu rd mn m c b1 b2 a v' cy' am w,
  about_to p cpu rd mn m c b1 b2 -> operand_at p cpu rd m b1 b2 a ->
  shifted mn (ps_carry (reg_ps cpu)) (rd a) = Some (v', cy') ->
  am_write p (amap cpu) a v' = Ok (am, WOk w) ->
  becomes p cpu (mkMos6502 am (reg_acc cpu) (reg_x cpu) (reg_y cpu) (reg_sp cpu)
                   (following cpu m) (nz (carry_is (reg_ps cpu) cy') v')).
Proof.
  intros p cpu rd mn m c b1 b2 a v' cy' am w Ha Ho Hs Hw.
  destruct (shifted_spec mn m c p (regs_of cpu) rd b1 b2) as (f & He & Hf).
  { apply (shifted_any _ _ (rd a)). cbn. rewrite Hs. discriminate. }
  assert (K := becomes_modify p cpu rd mn m c b1 b2 a f Ha He Ho).
  assert (Hu : u8 (rd a)).
  { destruct Ha as (Hr & Hb & Hv & Hx). apply Hv.
    exact (operand_at_u16 p cpu rd mn m c b1 b2 a (conj Hr (conj Hb (conj Hv Hx))) Ho). }
  rewrite (Hf (rd a) v' cy' Hu Hs) in K. cbn [fst snd] in K. rewrite Hw in K. exact K.
Qed.

(** ROL A followed by ROR A restores the byte and the carry. *)
Theorem C18_rol_ror : forall p cpu rd c b1 b2 cpu1 rd' c' b1' b2' cpu2,
  about_to p cpu rd Rol Accumulator c b1 b2 -> becomes p cpu cpu1 ->
  about_to p cpu1 rd' Ror Accumulator c' b1' b2' -> becomes p cpu1 cpu2 ->
  reg_acc cpu2 = reg_acc cpu /\ ps_carry (reg_ps cpu2) = ps_carry (reg_ps cpu).
Proof.
  intros p cpu rd c b1 b2 cpu1 rd' c' b1' b2' cpu2 A1 B1 A2 B2.
  assert (E1 := becomes_det _ _ _ _ (C18_shift_accumulator p cpu rd Rol c b1 b2 _ _ A1 eq_refl) B1).
  assert (E2 := becomes_det _ _ _ _ (C18_shift_accumulator p cpu1 rd' Ror c' b1' b2' _ _ A2 eq_refl) B2).
  destruct (about_regs _ _ _ _ _ _ _ _ A1) as (HA & _).
  subst cpu1. subst cpu2. cbn [reg_acc reg_ps nz carry_is ps_carry]. rewrite odd_mod2.
  unfold u8 in HA. destruct (ps_carry (reg_ps cpu)), (128 <=? reg_acc cpu) eqn:E; split; lia.
Qed.

(** The same on a memory byte that reads back as written: whatever runs in
    between, as long as the carry and the byte are kept, the opposite rotation
    writes the original byte back and restores the carry. *)
Theorem C18_rotate_back_memory : forall p cpu rd mn mn' m c b1 b2 a v' cy' cpu1 rd' m' c' b1' b2' am w,
  (mn = Rol /\ mn' = Ror \/ mn = Ror /\ mn' = Rol) ->
  about_to p cpu rd mn m c b1 b2 -> operand_at p cpu rd m b1 b2 a ->
  shifted mn (ps_carry (reg_ps cpu)) (rd a) = Some (v', cy') ->
  about_to p cpu1 rd' mn' m' c' b1' b2' -> operand_at p cpu1 rd' m' b1' b2' a ->
  rd' a = v' -> ps_carry (reg_ps cpu1) = cy' ->
  am_write p (amap cpu1) a (rd a) = Ok (am, WOk w) ->
  becomes p cpu1 (mkMos6502 am (reg_acc cpu1) (reg_x cpu1) (reg_y cpu1) (reg_sp cpu1)
                    (following cpu1 m') (nz (carry_is (reg_ps cpu1) (ps_carry (reg_ps cpu))) (rd a))).
Proof.
  intros p cpu rd mn mn' m c b1 b2 a v' cy' cpu1 rd' m' c' b1' b2' am w Hm A1 O1 Hs A2 O2 Hr Hc Hw.
  apply (C18_shift_memory p cpu1 rd' mn' m' c' b1' b2' a _ _ am w A2 O2); [|exact Hw].
  assert (Hb : u8 (rd a)).
  { assert (Ua := operand_at_u16 _ _ _ _ _ _ _ _ _ A1 O1). destruct A1 as (_ & _ & Hv & _). exact (Hv a Ua). }
  unfold u8 in Hb.
  rewrite Hr, Hc. clear Hr Hc.
  destruct Hm as [[-> ->]|[-> ->]]; cbn [shifted] in Hs |- *;
    apply (f_equal (fun o => match o with Some x => x | None => (0, true) end)) in Hs;
    assert (Ev := f_equal fst Hs); assert (Ec := f_equal snd Hs); cbn [fst snd] in Ev, Ec; subst v' cy';
    rewrite ?odd_mod2 in *; clear -Hb; generalize dependent (rd a); intros b Hb;
    destruct (ps_carry (reg_ps cpu)), (128 <=? b) eqn:E, (b mod 2 =? 1) eqn:E2; f_equal; f_equal; lia.
Qed.

(** ** C19 increments and decrements *)
Theorem C19_memory : forall p cpu rd mn m c b1 b2 a v' am w,
  about_to p cpu rd mn m c b1 b2 -> operand_at p cpu rd m b1 b2 a ->
  (mn = Inc /\ v' = (rd a + 1) mod 256 \/ mn = Dec /\ v' = (rd a - 1) mod 256) ->
  am_write p (amap cpu) a v' = Ok (am, WOk w) ->
  becomes p cpu (mkMos6502 am (reg_acc cpu) (reg_x cpu) (reg_y cpu) (reg_sp cpu)
                   (following cpu m) (nz (reg_ps cpu) v')).
Proof.
  intros p cpu rd mn m c b1 b2 a v' am w Ha Ho Hm Hw.
  destruct Hm as [[-> ->]|[-> ->]];
    assert (K := becomes_modify p cpu rd _ m c b1 b2 a _ Ha eq_refl Ho);
    cbn [fst snd] in K; rewrite Hw in K; exact K.
Qed.

Theorem C19_inx : forall p cpu rd m c b1 b2, about_to p cpu rd Inx m c b1 b2 ->
  becomes p cpu (let v := (reg_x cpu + 1) mod 256 in
    mkMos6502 (amap cpu) (reg_acc cpu) v (reg_y cpu) (reg_sp cpu) (following cpu Implied) (nz (reg_ps cpu) v)).
Proof. intros p cpu rd m c b1 b2 Ha. exact (becomes_implied p cpu rd _ _ c b1 b2 _ Ha eq_refl). Qed.

Theorem C19_iny : forall p cpu rd m c b1 b2, about_to p cpu rd Iny m c b1 b2 ->
  becomes p cpu (let v := (reg_y cpu + 1) mod 256 in
    mkMos6502 (amap cpu) (reg_acc cpu) (reg_x cpu) v (reg_sp cpu) (following cpu Implied) (nz (reg_ps cpu) v)).
Proof. intros p cpu rd m c b1 b2 Ha. exact (becomes_implied p cpu rd _ _ c b1 b2 _ Ha eq_refl). Qed.

Theorem C19_dex : forall p cpu rd m c b1 b2, about_to p cpu rd Dex m c b1 b2 ->
  becomes p cpu (let v := (reg_x cpu - 1) mod 256 in
    mkMos6502 (amap cpu) (reg_acc cpu) v (reg_y cpu) (reg_sp cpu) (following cpu Implied) (nz (reg_ps cpu) v)).
Proof. intros p cpu rd m c b1 b2 Ha. exact (becomes_implied p cpu rd _ _ c b1 b2 _ Ha eq_refl). Qed.

(** DEY: the register is right, N and Z are those of X - 1. *)
Theorem C19_dey_exact : forall p cpu rd m c b1 b2, about_to p cpu rd Dey m c b1 b2 ->
  becomes p cpu
    (mkMos6502 (amap cpu) (reg_acc cpu) (reg_x cpu) ((reg_y cpu - 1) mod 256) (reg_sp cpu)
       (following cpu Implied) (nz (reg_ps cpu) ((reg_x cpu - 1) mod 256))).
Proof. intros p cpu rd m c b1 b2 Ha. exact (becomes_implied p cpu rd _ _ c b1 b2 _ Ha eq_refl). Qed.

Definition after_dey cpu : mos6502 D :=
  let v := (reg_y cpu - 1) mod 256 in
  mkMos6502 (amap cpu) (reg_acc cpu) (reg_x cpu) v (reg_sp cpu) (following cpu Implied) (nz (reg_ps cpu) v).

Theorem C19_dey_documented_iff : forall p cpu rd m c b1 b2, about_to p cpu rd Dey m c b1 b2 ->
  (becomes p cpu (after_dey cpu) <->
   (reg_x cpu = 1 <-> reg_y cpu = 1) /\
   (1 <= reg_x cpu <= 128 <-> 1 <= reg_y cpu <= 128)).
Proof.
  intros p cpu rd m c b1 b2 Ha.
  rewrite (becomes_iff _ _ _ _ (C19_dey_exact p cpu rd m c b1 b2 Ha)).
  destruct (about_regs _ _ _ _ _ _ _ _ Ha) as (_ & HX & HY & _). unfold u8 in *.
  unfold after_dey, nz. split.
  - intros E. injection E as E1 E2. lia.
  - intros E. f_equal. f_equal; lia.
Qed.

(** ** C20 branches *)
Definition goes_to cpu (pc : Z) : mos6502 D :=
  mkMos6502 (amap cpu) (reg_acc cpu) (reg_x cpu) (reg_y cpu) (reg_sp cpu) pc (reg_ps cpu).

Theorem C20_branch_exact : forall p cpu rd mn m c b1 b2 taken,
  about_to p cpu rd mn m c b1 b2 -> branch_taken mn (reg_ps cpu) = Some taken ->
  becomes p cpu (goes_to cpu (if taken then (reg_pc cpu + signed b1) mod 65536
                              else (reg_pc cpu + 2) mod 65536)).
Proof.
  intros p cpu rd mn m c b1 b2 taken Ha Ht. unfold becomes.
  rewrite (about_step _ _ _ _ _ _ _ _ Ha).
  assert (B : execute p mn m c (regs_of cpu) rd b1 b2 = branch_op taken (regs_of cpu) b1 c).
  { destruct mn; cbn [branch_taken] in Ht; try discriminate; injection Ht as <-; reflexivity. }
  rewrite B. unfold branch_op. destruct taken; cbn; eexists; reflexivity.
Qed.

(** Control is transferred iff the documented flag condition holds, unless
    the two continuations coincide; no register, flag or memory byte changes. *)
Theorem C20_branch_partial : forall p cpu rd mn m c b1 b2 taken,
  about_to p cpu rd mn m c b1 b2 -> branch_taken mn (reg_ps cpu) = Some taken ->
  exists pc, becomes p cpu (goes_to cpu pc) /\
    (taken = false -> pc = (reg_pc cpu + 2) mod 65536) /\
    (taken = true -> (pc + 2) mod 65536 = (reg_pc cpu + 2 + signed b1) mod 65536).
Proof.
  intros p cpu rd mn m c b1 b2 taken Ha Ht. eexists.
  split; [exact (C20_branch_exact p cpu rd mn m c b1 b2 taken Ha Ht)|].
  destruct taken; split; intros E; try discriminate; [|reflexivity].
  rewrite Zplus_mod_idemp_l. f_equal. lia.
Qed.

(** A taken branch never lands on the documented target. *)
Theorem C20_taken_never_documented : forall p cpu rd mn m c b1 b2,
  about_to p cpu rd mn m c b1 b2 -> branch_taken mn (reg_ps cpu) = Some true ->
  ~ becomes p cpu (goes_to cpu ((reg_pc cpu + 2 + signed b1) mod 65536)).
Proof.
  intros p cpu rd mn m c b1 b2 Ha Ht B.
  assert (E := becomes_det _ _ _ _ (C20_branch_exact p cpu rd mn m c b1 b2 true Ha Ht) B).
  injection E as E. set (s := signed b1) in *. clearbody s. lia.
Qed.

(** ** C21 program counter *)
Theorem C21_advances : forall p cpu rd mn m c b1 b2 cpu',
  about_to p cpu rd mn m c b1 b2 -> transfers_control mn = false -> becomes p cpu cpu' ->
  reg_pc cpu' = (reg_pc cpu + length_of m) mod 65536.
Proof.
  intros p cpu rd mn m c b1 b2 cpu' Ha Ht [k B]. rewrite (about_step _ _ _ _ _ _ _ _ Ha) in B.
  assert (Hin := about_mode _ _ _ _ _ _ _ _ Ha).
  assert (G : forall e, execute p mn m c (regs_of cpu) rd b1 b2 = Some e ->
              rPC (e_regs e) = (reg_pc cpu + length_of m) mod 65536).
  { intros e He.
    assert (R : forall f, (forall v, rPC (f (regs_of cpu) v) = reg_pc cpu) ->
              read_op p m (regs_of cpu) rd b1 b2 c f = Some e ->
              rPC (e_regs e) = (reg_pc cpu + length_of m) mod 65536).
    { intros f Hf E. unfold read_op in E. destruct (operand_value _ _ _ _ _ _) as [v|]; [|discriminate].
      injection E as <-. cbn [e_regs advance withPC rPC]. rewrite Hf. reflexivity. }
    assert (S : forall v, store_op p m (regs_of cpu) rd b1 b2 c v = Some e ->
              rPC (e_regs e) = (reg_pc cpu + length_of m) mod 65536).
    { intros v E. unfold store_op in E. destruct (operand_address _ _ _ _ _ _); [|discriminate].
      injection E as <-. reflexivity. }
    assert (M : forall f, (forall v, rPC (snd (f (regs_of cpu) v)) = reg_pc cpu) ->
              modify_op p m (regs_of cpu) rd b1 b2 c f = Some e ->
              rPC (e_regs e) = (reg_pc cpu + length_of m) mod 65536).
    { intros f Hf E. unfold modify_op in E.
      assert (F : forall v, (let '(v', r') := f (regs_of cpu) v in rPC r') = reg_pc cpu).
      { intros v. specialize (Hf v). destruct (f (regs_of cpu) v). exact Hf. }
      destruct m;
        try (destruct (operand_address _ _ _ _ _ _) as [a|]; [|discriminate];
             specialize (F (rd a)); destruct (f (regs_of cpu) (rd a)) as [v r']; injection E as <-;
             cbn [e_regs advance withPC rPC]; rewrite F; reflexivity).
      specialize (F (rA (regs_of cpu))); destruct (f (regs_of cpu) (rA (regs_of cpu))) as [v r'].
      injection E as <-. cbn [e_regs advance withPC withA rPC]. rewrite F. reflexivity. }
    assert (I : m = Implied -> forall r, rPC r = reg_pc cpu -> implied_op r c = Some e ->
              rPC (e_regs e) = (reg_pc cpu + length_of m) mod 65536).
    { intros -> r Hr E. injection E as <-. cbn [e_regs advance withPC rPC]. rewrite Hr. reflexivity. }
    assert (Mi : match mn with
                 | Lda | Ldx | Ldy | Sta | Stx | Sty | Adc | Sbc | And | Ora | Eor | Bit | Cmp | Cpx | Cpy
                 | Asl | Lsr | Rol | Ror | Inc | Dec | Jmp | Jsr
                 | Bcc | Bcs | Beq | Bmi | Bne | Bpl | Bvc | Bvs => True
                 | _ => m = Implied end).
    { assert (F : forallb (fun row => match snd row with (mn, m, _) =>
        match mn with
                 | Lda | Ldx | Ldy | Sta | Stx | Sty | Adc | Sbc | And | Ora | Eor | Bit | Cmp | Cpx | Cpy
                 | Asl | Lsr | Rol | Ror | Inc | Dec | Jmp | Jsr
                 | Bcc | Bcs | Beq | Bmi | Bne | Bpl | Bvc | Bvs => true
                 | _ => match m with Implied => true | _ => false end end end) opcode_table = true)
        by (vm_compute; reflexivity).
      rewrite forallb_forall in F. specialize (F _ Hin). cbn [snd] in F.
      destruct mn; auto; destruct m; auto; discriminate. }
    destruct mn; cbn [transfers_control] in Ht; try discriminate; cbn [execute] in He;
      first [ refine (R _ _ He); intros v; reflexivity
            | exact (S _ He)
            | refine (M _ _ He); intros v; unfold shift_with;
              unfold spec_asl, spec_lsr, spec_rol, spec_ror; reflexivity
            | refine (I Mi _ _ He); reflexivity
            | injection He as <-; reflexivity ]. }
  unfold spec_outcome in B.
  destruct (execute p mn m c (regs_of cpu) rd b1 b2) as [e|] eqn:Ee; [|discriminate].
  destruct (store_all p (amap cpu) (e_stores e)) as [am|]; [|discriminate].
  injection B as _ <-. cbn [reg_pc cpu_with]. exact (G e eq_refl).
Qed.
End Alu.

(** ** Refutations: the textbook statements are false of the program. *)
Theorem C14_adc_refuted :
  ~ (forall p (cpu : mos6502 memory) rd m c b1 b2 v,
       about_to p cpu rd Adc m c b1 b2 -> operand_is p cpu rd m b1 b2 v ->
       becomes p cpu (after_adc cpu m v)).
Proof.
  intros T. set (s1 := carry_is ps0 true).
  specialize (T Debug (machine [] [0x69; 0x01] 1 0 0 0xff s1)
    (bytes_at Debug [] [0x69; 0x01] 1 0 0 0xff s1) Immediate 2%nat 1 0 1).
  assert (A : about_to Debug (machine [] [0x69; 0x01] 1 0 0 0xff s1)
    (bytes_at Debug [] [0x69; 0x01] 1 0 0 0xff s1) Adc Immediate 2 1 0) by demo.
  specialize (T A eq_refl). apply (C14_adc_documented_iff _ _ _ _ _ _ _ _ A eq_refl) in T.
  destruct T as [T _]. discriminate.
Qed.

(** Even with the carry clear: 100 + 100 does not set V. *)
Theorem C14_adc_overflow_refuted :
  ~ (forall p (cpu : mos6502 memory) rd m c b1 b2 v,
       about_to p cpu rd Adc m c b1 b2 -> operand_is p cpu rd m b1 b2 v ->
       ps_carry (reg_ps cpu) = false -> becomes p cpu (after_adc cpu m v)).
Proof.
  intros T.
  specialize (T Debug (machine [] [0x69; 100] 100 0 0 0xff ps0)
    (bytes_at Debug [] [0x69; 100] 100 0 0 0xff ps0) Immediate 2%nat 100 0 100).
  assert (A : about_to Debug (machine [] [0x69; 100] 100 0 0 0xff ps0)
    (bytes_at Debug [] [0x69; 100] 100 0 0 0xff ps0) Adc Immediate 2 100 0) by demo.
  specialize (T A eq_refl eq_refl). apply (C14_adc_documented_iff _ _ _ _ _ _ _ _ A eq_refl) in T.
  cbn in T. lia.
Qed.

Theorem C15_sbc_refuted :
  ~ (forall p (cpu : mos6502 memory) rd m c b1 b2 v,
       about_to p cpu rd Sbc m c b1 b2 -> operand_is p cpu rd m b1 b2 v ->
       becomes p cpu (after_sbc cpu m v)).
Proof.
  intros T. set (s1 := carry_is ps0 true).
  specialize (T Debug (machine [] [0xe9; 0x00] 5 0 0 0xff s1)
    (bytes_at Debug [] [0xe9; 0x00] 5 0 0 0xff s1) Immediate 2%nat 0 0 0).
  assert (A : about_to Debug (machine [] [0xe9; 0x00] 5 0 0 0xff s1)
    (bytes_at Debug [] [0xe9; 0x00] 5 0 0 0xff s1) Sbc Immediate 2 0 0) by demo.
  specialize (T A eq_refl). apply (C15_sbc_documented_iff _ _ _ _ _ _ _ _ A eq_refl) in T.
  destruct T as [T _]. apply T. split; reflexivity.
Qed.

(** CMP #0 with A = 5 clears the carry. *)
Theorem C16_compare_refuted :
  ~ (forall p (cpu : mos6502 memory) rd mn m c b1 b2 v r,
       about_to p cpu rd mn m c b1 b2 -> operand_is p cpu rd m b1 b2 v -> compared mn cpu = Some r ->
       becomes p cpu (after_compare cpu m r v)).
Proof.
  intros T.
  specialize (T Debug (machine [] [0xc9; 0x00] 5 0 0 0xff ps0)
    (bytes_at Debug [] [0xc9; 0x00] 5 0 0 0xff ps0) Cmp Immediate 2%nat 0 0 0 5).
  assert (A : about_to Debug (machine [] [0xc9; 0x00] 5 0 0 0xff ps0)
    (bytes_at Debug [] [0xc9; 0x00] 5 0 0 0xff ps0) Cmp Immediate 2 0 0) by demo.
  specialize (T A eq_refl eq_refl).
  apply (C16_compare_documented_iff _ _ _ _ _ _ _ _ _ _ A eq_refl eq_refl) in T.
  destruct T as [_ T]. apply T. split; [reflexivity|split; vm_compute; discriminate].
Qed.

(** DEY with Y = 1 and X = 5 leaves Z clear. *)
Theorem C19_dey_refuted :
  ~ (forall p (cpu : mos6502 memory) rd m c b1 b2, about_to p cpu rd Dey m c b1 b2 ->
       becomes p cpu (after_dey cpu)).
Proof.
  intros T.
  specialize (T Debug (machine [] [0x88] 0 5 1 0xff ps0)
    (bytes_at Debug [] [0x88] 0 5 1 0xff ps0) Implied 2%nat 0 0).
  assert (A : about_to Debug (machine [] [0x88] 0 5 1 0xff ps0)
    (bytes_at Debug [] [0x88] 0 5 1 0xff ps0) Dey Implied 2 0 0) by demo.
  specialize (T A). apply (C19_dey_documented_iff _ _ _ _ _ _ _ A) in T. cbn in T. lia.
Qed.

(** The documented branch rule. *)
Theorem C20_branch_refuted :
  ~ (forall p (cpu : mos6502 memory) rd mn m c b1 b2 taken,
       about_to p cpu rd mn m c b1 b2 -> branch_taken mn (reg_ps cpu) = Some taken ->
       becomes p cpu (goes_to cpu
         ((reg_pc cpu + 2 + (if taken then signed b1 else 0)) mod 65536))).
Proof.
  intros T.
  specialize (T Debug (machine [] [0x90; 0x05] 0 5 1 0xff ps0)
    (bytes_at Debug [] [0x90; 0x05] 0 5 1 0xff ps0) Bcc Relative 2%nat 5 0 true).
  assert (A : about_to Debug (machine [] [0x90; 0x05] 0 5 1 0xff ps0)
    (bytes_at Debug [] [0x90; 0x05] 0 5 1 0xff ps0) Bcc Relative 2 5 0) by demo.
  specialize (T A eq_refl).
  exact (C20_taken_never_documented _ _ _ _ _ _ _ _ A eq_refl T).
Qed.

(** ** Concrete states meeting the hypotheses. *)
Example C14_nonvacuous :
  about_to Debug (machine [0; 200] [0x65; 0x01] 100 0 0 0xff ps0)
    (bytes_at Debug [0; 200] [0x65; 0x01] 100 0 0 0xff ps0) Adc ZeroPage 3 1 0 /\
  operand_is Debug (machine [0; 200] [0x65; 0x01] 100 0 0 0xff ps0)
    (bytes_at Debug [0; 200] [0x65; 0x01] 100 0 0 0xff ps0) ZeroPage 1 0 200 /\
  ps_carry ps0 = false /\
  demo_step Debug [0; 200] [0x65; 0x01] 100 0 0 0xff ps0
  = Some (3%nat, [44; 0; 0; 0xff; 0x8002], carry_is ps0 true).
Proof. split; [demo|]. split; [vm_compute; reflexivity|]. split; vm_compute; reflexivity. Qed.

Example C15_nonvacuous :
  about_to Debug (machine [0; 3] [0xed; 0x01; 0x00] 10 0 0 0xff (carry_is ps0 true))
    (bytes_at Debug [0; 3] [0xed; 0x01; 0x00] 10 0 0 0xff (carry_is ps0 true)) Sbc Absolute 4 1 0 /\
  operand_is Debug (machine [0; 3] [0xed; 0x01; 0x00] 10 0 0 0xff (carry_is ps0 true))
    (bytes_at Debug [0; 3] [0xed; 0x01; 0x00] 10 0 0 0xff (carry_is ps0 true)) Absolute 1 0 3 /\
  demo_step Debug [0; 3] [0xed; 0x01; 0x00] 10 0 0 0xff (carry_is ps0 true)
  = Some (4%nat, [7; 0; 0; 0xff; 0x8003], carry_is ps0 true).
Proof. split; [demo|]. split; vm_compute; reflexivity. Qed.

Example C16_nonvacuous :
  about_to Debug (machine [0; 3] [0xe4; 0x01] 0 2 0 0xff ps0)
    (bytes_at Debug [0; 3] [0xe4; 0x01] 0 2 0 0xff ps0) Cpx ZeroPage 3 1 0 /\
  operand_is Debug (machine [0; 3] [0xe4; 0x01] 0 2 0 0xff ps0)
    (bytes_at Debug [0; 3] [0xe4; 0x01] 0 2 0 0xff ps0) ZeroPage 1 0 3 /\
  compared Cpx (machine [0; 3] [0xe4; 0x01] 0 2 0 0xff ps0) = Some 2.
Proof. split; [demo|]. split; vm_compute; reflexivity. Qed.

Example C17_nonvacuous :
  about_to Debug (machine [0; 0xc3] [0x24; 0x01] 0x3c 2 0 0xff ps0)
    (bytes_at Debug [0; 0xc3] [0x24; 0x01] 0x3c 2 0 0xff ps0) Bit ZeroPage 3 1 0 /\
  operand_is Debug (machine [0; 0xc3] [0x24; 0x01] 0x3c 2 0 0xff ps0)
    (bytes_at Debug [0; 0xc3] [0x24; 0x01] 0x3c 2 0 0xff ps0) ZeroPage 1 0 0xc3.
Proof. split; [demo|]. vm_compute; reflexivity. Qed.
Example C17_nonvacuous_and :
  about_to Debug (machine [0; 0xc3] [0x25; 0x01] 0x3c 2 0 0xff ps0)
    (bytes_at Debug [0; 0xc3] [0x25; 0x01] 0x3c 2 0 0xff ps0) And ZeroPage 3 1 0.
Proof. demo. Qed.

(** ROL A; ROR A on the byte 0x81 with the carry clear. *)
Example C18_nonvacuous :
  let cpu := machine [] [0x2a; 0x6a] 0x81 0 0 0xff ps0 in
  exists cpu1 cpu2 rd',
    about_to Debug cpu (bytes_at Debug [] [0x2a; 0x6a] 0x81 0 0 0xff ps0) Rol Accumulator 2 0x6a 0 /\
    becomes Debug cpu cpu1 /\ about_to Debug cpu1 rd' Ror Accumulator 2 0 0 /\
    becomes Debug cpu1 cpu2 /\ reg_acc cpu1 = 2 /\ ps_carry (reg_ps cpu1) = true.
Proof.
  intros cpu.
  assert (A : about_to Debug cpu (bytes_at Debug [] [0x2a; 0x6a] 0x81 0 0 0xff ps0)
    Rol Accumulator 2 0x6a 0) by (subst cpu; demo).
  assert (B := C18_shift_accumulator _ _ _ _ _ _ _ _ _ A eq_refl).
  eexists. eexists. exists (bytes_at Debug [] [0x2a; 0x6a] 0x81 0 0 0xff ps0).
  split; [exact A|]. split; [exact B|].
  assert (A2 : about_to Debug
    (mkMos6502 (amap cpu) ((2 * 0x81) mod 256) 0 0 0xff (following cpu Accumulator)
       (nz (carry_is ps0 true) 2))
    (bytes_at Debug [] [0x2a; 0x6a] 0x81 0 0 0xff ps0) Ror Accumulator 2 0 0).
  { destruct A as (Hr & Hb & Hv & _). refine (conj _ (conj Hb (conj Hv _))).
    - repeat split; vm_compute; discriminate.
    - split; [right; vm_compute; discriminate|]. split; [|split]; vm_compute; reflexivity. }
  split; [exact A2|]. split; [exact (C18_shift_accumulator _ _ _ _ _ _ _ _ _ A2 eq_refl)|].
  split; reflexivity.
Qed.

Example C18_nonvacuous_memory :
  about_to Debug (machine [0; 0x81] [0x66; 0x01] 0 0 0 0xff (carry_is ps0 true))
    (bytes_at Debug [0; 0x81] [0x66; 0x01] 0 0 0 0xff (carry_is ps0 true)) Ror ZeroPage 5 1 0 /\
  operand_at Debug (machine [0; 0x81] [0x66; 0x01] 0 0 0 0xff (carry_is ps0 true))
    (bytes_at Debug [0; 0x81] [0x66; 0x01] 0 0 0 0xff (carry_is ps0 true)) ZeroPage 1 0 1 /\
  shifted Ror true (bytes_at Debug [0; 0x81] [0x66; 0x01] 0 0 0 0xff (carry_is ps0 true) 1) = Some (0xc0, true) /\
  exists am w, am_write Debug (amap (machine [0; 0x81] [0x66; 0x01] 0 0 0 0xff (carry_is ps0 true))) 1 0xc0
    = Ok (am, WOk w).
Proof.
  split; [demo|]. split; [vm_compute; reflexivity|]. split; [vm_compute; reflexivity|].
  do 2 eexists. vm_compute. reflexivity.
Qed.

(** ROL 1; ROR 1 on the byte 0x81. *)
Example C18_nonvacuous_rotate_back :
  let cpu := machine [0; 0x81] [0x26; 0x01; 0x66; 0x01] 0 0 0 0xff ps0 in
  let rd := bytes_at Debug [0; 0x81] [0x26; 0x01; 0x66; 0x01] 0 0 0 0xff ps0 in
  let cpu1 := set_pc (machine [0; 0x02] [0x26; 0x01; 0x66; 0x01] 0 0 0 0xff (carry_is ps0 true)) 0x8002 in
  let rd' := bytes_at Debug [0; 0x02] [0x26; 0x01; 0x66; 0x01] 0 0 0 0xff ps0 in
  about_to Debug cpu rd Rol ZeroPage 5 1 0x66 /\ operand_at Debug cpu rd ZeroPage 1 0x66 1 /\
  becomes Debug cpu cpu1 /\ shifted Rol false (rd 1) = Some (2, true) /\
  about_to Debug cpu1 rd' Ror ZeroPage 5 1 0 /\ operand_at Debug cpu1 rd' ZeroPage 1 0 1 /\ rd' 1 = 2 /\
  exists am w, am_write Debug (amap cpu1) 1 (rd 1) = Ok (am, WOk w).
Proof.
  intros cpu rd cpu1 rd'.
  split; [subst cpu rd; demo|]. split; [vm_compute; reflexivity|].
  split; [exists 5%nat; vm_compute; reflexivity|]. split; [vm_compute; reflexivity|].
  split.
  { assert (A : about_to Debug (machine [0; 0x02] [0x26; 0x01; 0x66; 0x01] 0 0 0 0xff ps0) rd'
      Rol ZeroPage 5 1 0x66) by (subst rd'; demo).
    destruct A as (Hr & Hb & Hv & _). refine (conj _ (conj Hb (conj Hv _))).
    - repeat split; vm_compute; discriminate.
    - split; [right; vm_compute; discriminate|]. split; [|split]; vm_compute; reflexivity. }
  split; [vm_compute; reflexivity|]. split; [vm_compute; reflexivity|].
  exists (amap cpu), 0x81. vm_compute. reflexivity.
Qed.

Example C19_nonvacuous_memory :
  about_to Debug (machine [0; 0xff] [0xe6; 0x01] 0 0 0 0xff ps0)
    (bytes_at Debug [0; 0xff] [0xe6; 0x01] 0 0 0 0xff ps0) Inc ZeroPage 5 1 0 /\
  operand_at Debug (machine [0; 0xff] [0xe6; 0x01] 0 0 0 0xff ps0)
    (bytes_at Debug [0; 0xff] [0xe6; 0x01] 0 0 0 0xff ps0) ZeroPage 1 0 1 /\
  exists am w, am_write Debug (amap (machine [0; 0xff] [0xe6; 0x01] 0 0 0 0xff ps0)) 1
    ((bytes_at Debug [0; 0xff] [0xe6; 0x01] 0 0 0 0xff ps0 1 + 1) mod 256) = Ok (am, WOk w).
Proof.
  split; [demo|]. split; [vm_compute; reflexivity|]. do 2 eexists. vm_compute. reflexivity.
Qed.
Example C19_nonvacuous_inx :
  about_to Debug (machine [] [0xe8] 0 0xff 0 0xff ps0)
    (bytes_at Debug [] [0xe8] 0 0xff 0 0xff ps0) Inx Implied 2 0 0.
Proof. demo. Qed.

(** A backward branch. *)
Example C20_nonvacuous :
  about_to Debug (machine [] [0xf0; 0xfb] 0 0 0 0xff (nz ps0 0))
    (bytes_at Debug [] [0xf0; 0xfb] 0 0 0 0xff (nz ps0 0)) Beq Relative 2 0xfb 0 /\
  branch_taken Beq (nz ps0 0) = Some true /\ signed 0xfb = -5.
Proof. split; [demo|]. split; reflexivity. Qed.

Example C21_nonvacuous :
  about_to Debug (machine [0; 3] [0xed; 0x01; 0x00] 10 0 0 0xff ps0)
    (bytes_at Debug [0; 3] [0xed; 0x01; 0x00] 10 0 0 0xff ps0) Sbc Absolute 4 1 0 /\
  transfers_control Sbc = false /\
  exists cpu', becomes Debug (machine [0; 3] [0xed; 0x01; 0x00] 10 0 0 0xff ps0) cpu'.
Proof.
  assert (A : about_to Debug (machine [0; 3] [0xed; 0x01; 0x00] 10 0 0 0xff ps0)
    (bytes_at Debug [0; 3] [0xed; 0x01; 0x00] 10 0 0 0xff ps0) Sbc Absolute 4 1 0) by demo.
  split; [exact A|]. split; [reflexivity|]. eexists.
  refine (C15_sbc_exact _ _ _ _ _ _ _ 3 A _). vm_compute. reflexivity.
Qed.

Print Assumptions C14_adc_exact.
Print Assumptions C14_adc_documented_iff.
Print Assumptions C14_adc_partial.
Print Assumptions C14_adc_refuted.
Print Assumptions C14_adc_overflow_refuted.
Print Assumptions C15_sbc_exact.
Print Assumptions C15_sbc_partial.
Print Assumptions C15_sbc_documented_iff.
Print Assumptions C15_sbc_documented_cases.
Print Assumptions C15_sbc_refuted.
Print Assumptions C16_compare_exact.
Print Assumptions C16_compare_documented_iff.
Print Assumptions C16_compare_partial.
Print Assumptions C16_compare_refuted.
Print Assumptions C17_and.
Print Assumptions C17_ora.
Print Assumptions C17_eor.
Print Assumptions C17_bit.
Print Assumptions C18_shift_accumulator.
Print Assumptions C18_shift_memory.
Print Assumptions C18_rol_ror.
Print Assumptions C18_rotate_back_memory.
Print Assumptions C19_memory.
Print Assumptions C19_inx.
Print Assumptions C19_iny.
Print Assumptions C19_dex.
Print Assumptions C19_dey_exact.
Print Assumptions C19_dey_documented_iff.
Print Assumptions C19_dey_refuted.
Print Assumptions C20_branch_exact.
Print Assumptions C20_branch_partial.
Print Assumptions C20_taken_never_documented.
Print Assumptions C20_branch_refuted.
Print Assumptions C21_advances.
