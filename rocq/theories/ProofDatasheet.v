(** Lemmas for PropertiesDatasheet.v. *)
From Verif Require Import Base Arith ModelMap ModelStep ModelRegs6502 ModelCpu6502 ModelOperand
  ModelIsa6502 ModelRun6502 SpecMap ProofMap Link6502 ProofStep6502 ProofRun6502 ProofBus SpecInstr ProofInstr.
From Verif Require Import Spec6502 SpecDatasheet.

(** ** Which modes a mnemonic can have *)
Definition in_mem (m : addressing_mode) : bool :=
  match m with
  | Absolute | AbsoluteIndexedWithX | AbsoluteIndexedWithY | ZeroPage | ZeroPageIndexedWithX
  | ZeroPageIndexedWithY | XIndexedIndirect | IndirectYIndexed => true
  | _ => false
  end.
Definition legal (mn : mnemonic) (m : addressing_mode) : bool :=
  match mn with
  | Lda | Ldx | Ldy | Adc | Sbc | And | Ora | Eor | Bit | Cmp | Cpx | Cpy =>
      match m with Immediate => true | _ => in_mem m end
  | Sta | Stx | Sty => in_mem m
  | Asl | Lsr | Rol | Ror => match m with Accumulator => true | _ => in_mem m end
  | Inc | Dec => in_mem m
  | Jmp => match m with Absolute | Indirect => true | _ => false end
  | Jsr => match m with Absolute => true | _ => false end
  | Bcc | Bcs | Bne | Beq | Bpl | Bmi | Bvc | Bvs => match m with Relative => true | _ => false end
  | _ => match m with Implied => true | _ => false end
  end.

Lemma decode_legal b mn m c : decode b = Some (mn, m, c) -> legal mn m = true.
Proof.
  unfold decode. intros Hd. destruct (find _ opcode_table) as [[k d]|] eqn:E; [|discriminate].
  injection Hd as ->. apply find_some in E as [Hin _].
  assert (F : forallb (fun row => match snd row with (mn, m, _) => legal mn m end) opcode_table = true)
    by (vm_compute; reflexivity).
  rewrite forallb_forall in F. exact (F _ Hin).
Qed.

Lemma withPC_inj a b n : rPC a = rPC b -> withPC a n = withPC b n -> a = b.
Proof.
  destruct a as [a1 a2 a3 a4 a5 a6], b as [c1 c2 c3 c4 c5 c6]. unfold withPC. cbn [rA rX rY rS rPC rP]. congruence.
Qed.

(** ** Addresses *)
Definition wraps (m : addressing_mode) (r : registers) (rd : Z -> Z) (b1 : Z) : bool :=
  match m with
  | XIndexedIndirect => rX r =? 255
  | IndirectYIndexed => 65536 <=? rd b1 + 256 * rd ((b1 + 1) mod 256) + rY r
  | _ => false
  end.
Definition debug (p : profile) : bool := match p with Debug => true | Release => false end.

Section Instr.
Variables (p : profile) (m : addressing_mode) (r : registers) (rd : Z -> Z) (b1 b2 : Z) (c : nat).
Hypothesis (Hr : regs_ok r) (Hv : byte_valued rd) (H1 : u8 b1) (H2 : u8 b2).

Lemma address_eq : in_mem m = true ->
  operand_address p m r rd b1 b2 = if debug p && wraps m r rd b1 then None else Some (ds_address m r rd b1 b2).
Proof.
  intros Hm. destruct Hr as (HA & HX & HY & _). unfold u8 in *.
  destruct m; try discriminate; cbn [operand_address ds_address wraps]; unfold word;
    rewrite ?andb_false_r; try reflexivity.
  - assert (L : u8 (rd b1)) by (apply Hv; unfold u16; lia).
    assert (K : u8 (rd ((b1 + 1) mod 256))) by (apply Hv; unfold u16; lia).
    unfold unchecked, u8 in *.
    destruct (rd b1 + 256 * rd ((b1 + 1) mod 256) + rY r <? 65536) eqn:E.
    + replace (65536 <=? _) with false by lia.
      rewrite andb_false_r. rewrite (Z.mod_small (rd b1 + _ + _)) by lia. reflexivity.
    + replace (65536 <=? _) with true by lia.
      destruct p; reflexivity.
  - unfold unchecked. destruct (rX r + 1 <? 256) eqn:E.
    + replace (rX r =? 255) with false by lia. rewrite andb_false_r. reflexivity.
    + replace (rX r =? 255) with true by lia. destruct p; reflexivity.
Qed.

Lemma wraps_iff : debug p && wraps m r rd b1 = true <->
  (p = Debug /\ m = XIndexedIndirect /\ rX r = 255) \/
  (p = Debug /\ m = IndirectYIndexed /\ 65536 <= rd b1 + 256 * rd ((b1 + 1) mod 256) + rY r).
Proof.
  unfold debug, wraps. split.
  - destruct p; [|discriminate]. destruct m; try discriminate; cbn [andb]; intros E; [right|left]; repeat split; lia.
  - intros [(-> & -> & E)|(-> & -> & E)]; cbn [andb]; lia.
Qed.

Definition charged : bool :=
  match m with IndirectYIndexed => 256 <=? ds_address m r rd b1 b2 | _ => ds_crosses m r rd b1 end.

Lemma address_range : in_mem m = true -> u16 (ds_address m r rd b1 b2).
Proof.
  intros Hm. destruct Hr as (HA & HX & HY & _). unfold u8, u16 in *.
  destruct m; try discriminate; cbn [ds_address]; try lia.
  assert (L : u8 (rd ((b1 + rX r) mod 256))) by (apply Hv; unfold u16; lia).
  assert (K : u8 (rd ((b1 + rX r + 1) mod 256))) by (apply Hv; unfold u16; lia).
  unfold u8 in *. lia.
Qed.

Lemma penalty_eq : in_mem m = true ->
  read_penalty m b1 b2 (ds_address m r rd b1 b2) = if charged then 1%nat else 0%nat.
Proof.
  intros Hm. assert (Ha := address_range Hm). destruct Hr as (HA & HX & HY & _). unfold u8, u16, charged in *.
  destruct m; try discriminate; cbn [read_penalty ds_crosses]; try reflexivity; unfold word.
  - cbn [ds_address] in *. destruct (_ =? _) eqn:E, (256 <=? _) eqn:E2; try reflexivity; exfalso; lia.
  - cbn [ds_address] in *. destruct (_ =? _) eqn:E, (256 <=? _) eqn:E2; try reflexivity; exfalso; lia.
  - destruct (_ =? _) eqn:E, (256 <=? _) eqn:E2; try reflexivity; exfalso; lia.
Qed.

Lemma charged_iff (mn : mnemonic) : reads_operand mn = true -> (ds_crosses m r rd b1 <> charged <->
  m = IndirectYIndexed /\ reads_operand mn = true /\ ds_crosses m r rd b1 <> (256 <=? ds_address m r rd b1 b2)).
Proof.
  intros Hm. unfold charged. split.
  - intros E. destruct m; try (contradiction E; reflexivity). auto.
  - intros (-> & _ & E). exact E.
Qed.

Lemma ds_value_eq : in_mem m = true -> ds_value m r rd b1 b2 = rd (ds_address m r rd b1 b2).
Proof. destruct m; try discriminate; reflexivity. Qed.

(** ** Instructions that read an operand *)
Lemma read_eq f : match m with Immediate => true | _ => in_mem m end = true ->
  read_op p m r rd b1 b2 c f =
  if debug p && wraps m r rd b1 then None
  else Some (mkEffect (advance m (f r (ds_value m r rd b1 b2))) [] (c + (if charged then 1 else 0))).
Proof.
  intros Hm. unfold read_op, operand_value. destruct (in_mem m) eqn:Em.
  - rewrite (address_eq Em), (ds_value_eq Em).
    destruct (debug p && wraps m r rd b1); [destruct m; try discriminate; reflexivity|].
    rewrite (penalty_eq Em). destruct m; try discriminate; reflexivity.
  - unfold charged. destruct m; try discriminate. cbn [wraps operand_address ds_value ds_crosses].
    rewrite andb_false_r. reflexivity.
Qed.

Lemma nat_if (b b' : bool) : (c + (if b then 1 else 0) = c + (if b' then 1 else 0))%nat -> b' = b.
Proof. destruct b, b'; lia. Qed.

Lemma advance_eq r' : rPC r' = rPC r -> advance m r' = withPC r' ((rPC r + length_of m) mod 65536).
Proof. intros E. unfold advance. rewrite E. reflexivity. Qed.

Lemma read_iff (mn : mnemonic) f g Q : reads_operand mn = true ->
  match m with Immediate => true | _ => in_mem m end = true ->
  rPC (f r (ds_value m r rd b1 b2)) = rPC r -> rPC g = rPC r ->
  (f r (ds_value m r rd b1 b2) = g <-> ~ Q) ->
  (read_op p m r rd b1 b2 c f =
     Some (mkEffect (withPC g ((rPC r + length_of m) mod 65536)) [] (c + (if ds_crosses m r rd b1 then 1 else 0))) <->
   ~ ((p = Debug /\ m = XIndexedIndirect /\ rX r = 255) \/
      (p = Debug /\ m = IndirectYIndexed /\ 65536 <= rd b1 + 256 * rd ((b1 + 1) mod 256) + rY r) \/
      (p = Debug /\ m = Indirect /\ b1 = 255 /\ b2 = 255) \/
      (m = IndirectYIndexed /\ reads_operand mn = true /\
       ds_crosses m r rd b1 <> (256 <=? ds_address m r rd b1 b2)) \/ Q)).
Proof.
  intros Hmn Hm Ef Eg HQ. rewrite (read_eq f Hm). assert (W := wraps_iff).
  assert (Hi : ~ (p = Debug /\ m = Indirect /\ b1 = 255 /\ b2 = 255))
    by (intros (_ & -> & _); discriminate).
  assert (C := charged_iff mn Hmn). rewrite <- C. clear C.
  destruct (debug p && wraps m r rd b1).
  - split; [discriminate|]. intros K. exfalso. apply K. tauto.
  - rewrite (advance_eq _ Ef). split.
    + intros E. assert (Ec := f_equal (option_map e_cycles) E). assert (Er := f_equal (option_map e_regs) E).
      cbn [option_map e_cycles e_regs] in Ec, Er. injection Ec as Ec. apply nat_if in Ec.
      assert (Er' : f r (ds_value m r rd b1 b2) = g).
      { assert (E' : withPC (f r (ds_value m r rd b1 b2)) ((rPC r + length_of m) mod 65536) = withPC g ((rPC r + length_of m) mod 65536)) by congruence.
        apply withPC_inj in E'; congruence. }
      intros [K|[K|[K|[K|K]]]]; [intuition congruence|intuition congruence|tauto|congruence|tauto].
    + intros K. assert (E1 : ds_crosses m r rd b1 = charged)
        by (destruct (ds_crosses m r rd b1) eqn:?, charged eqn:?; try reflexivity; exfalso; apply K; right; right; right; left; discriminate).
      assert (E2 : f r (ds_value m r rd b1 b2) = g) by tauto. rewrite E1, E2. reflexivity.
Qed.
End Instr.

Section Iff.
Variables (p : profile) (m : addressing_mode) (r : registers) (rd : Z -> Z) (b1 b2 : Z) (c : nat).
Hypothesis (Hr : regs_ok r) (Hv : byte_valued rd) (H1 : u8 b1) (H2 : u8 b2).

Lemma value_u8 : match m with Immediate | Accumulator => true | _ => in_mem m end = true ->
  u8 (ds_value m r rd b1 b2).
Proof.
  intros Hm. destruct (in_mem m) eqn:Em.
  - rewrite ds_value_eq by exact Em. apply Hv. apply address_range; assumption.
  - destruct Hr as (HA & _). destruct m; try discriminate; assumption.
Qed.

Lemma store_iff mn x Q : stores_operand mn = true -> in_mem m = true -> ~ Q ->
  (store_op p m r rd b1 b2 c x =
     Some (mkEffect (withPC r ((rPC r + length_of m) mod 65536)) [(ds_address m r rd b1 b2, x)] c) <->
   ~ ((p = Debug /\ m = XIndexedIndirect /\ rX r = 255) \/
      (p = Debug /\ m = IndirectYIndexed /\ 65536 <= rd b1 + 256 * rd ((b1 + 1) mod 256) + rY r) \/
      (p = Debug /\ m = Indirect /\ b1 = 255 /\ b2 = 255) \/
      (m = IndirectYIndexed /\ reads_operand mn = true /\
       ds_crosses m r rd b1 <> (256 <=? ds_address m r rd b1 b2)) \/ Q)).
Proof.
  intros Hmn Hm HQ. unfold store_op. rewrite (address_eq p m r rd b1 b2 Hr Hv H1 Hm).
  assert (W := wraps_iff p m r rd b1).
  assert (Hi : m <> Indirect) by (intros ->; discriminate).
  assert (Hx : reads_operand mn = false) by (destruct mn; try discriminate; reflexivity).
  rewrite Hx. destruct (debug p && wraps m r rd b1).
  - split; [discriminate|]. intros K. exfalso. apply K. tauto.
  - split; [|reflexivity]. intros _. intuition congruence.
Qed.

Lemma modify_iff mn f x r' Q : modifies_operand mn = true ->
  match m with Accumulator => true | _ => in_mem m end = true -> ~ Q ->
  f r (ds_value m r rd b1 b2) = (x, r') -> rPC r' = rPC r ->
  (modify_op p m r rd b1 b2 c f =
     Some match m with
          | Accumulator => mkEffect (withPC (withA r' x) ((rPC r + length_of m) mod 65536)) [] c
          | _ => mkEffect (withPC r' ((rPC r + length_of m) mod 65536)) [(ds_address m r rd b1 b2, x)] c
          end <->
   ~ ((p = Debug /\ m = XIndexedIndirect /\ rX r = 255) \/
      (p = Debug /\ m = IndirectYIndexed /\ 65536 <= rd b1 + 256 * rd ((b1 + 1) mod 256) + rY r) \/
      (p = Debug /\ m = Indirect /\ b1 = 255 /\ b2 = 255) \/
      (m = IndirectYIndexed /\ reads_operand mn = true /\
       ds_crosses m r rd b1 <> (256 <=? ds_address m r rd b1 b2)) \/ Q)).
Proof.
  intros Hmn Hm HQ Ef Ep.
  assert (W := wraps_iff p m r rd b1).
  assert (Hi : m <> Indirect) by (intros ->; discriminate).
  assert (Hx : reads_operand mn = false) by (destruct mn; try discriminate; reflexivity).
  rewrite Hx. destruct (in_mem m) eqn:Em.
  - rewrite (ds_value_eq m r rd b1 b2 Em) in Ef.
    assert (F : modify_op p m r rd b1 b2 c f = if debug p && wraps m r rd b1 then None
      else Some (mkEffect (advance m r') [(ds_address m r rd b1 b2, x)] c)).
    { unfold modify_op. rewrite (address_eq p m r rd b1 b2 Hr Hv H1 Em). clear W.
      destruct m; try discriminate; destruct (debug p && _); rewrite ?Ef; reflexivity. }
    rewrite F. clear F. destruct (debug p && wraps m r rd b1).
    + split; [discriminate|]. intros K. exfalso. apply K. tauto.
    + split; [intros _; intuition congruence|]. intros _. rewrite (advance_eq m r r' Ep).
      destruct m; try discriminate; reflexivity.
  - destruct m; try discriminate. cbn [ds_value] in Ef. unfold modify_op. rewrite Ef.
    split; [intros _; intuition congruence|]. intros _. unfold advance. cbn [withA rPC].
    rewrite Ep. reflexivity.
Qed.

Lemma plain_iff mn (o o' : option effect) Q :
  match m with XIndexedIndirect | IndirectYIndexed => false | _ => true end = true -> m <> Indirect ->
  (o = o' <-> ~ Q) ->
  (o = o' <->
   ~ ((p = Debug /\ m = XIndexedIndirect /\ rX r = 255) \/
      (p = Debug /\ m = IndirectYIndexed /\ 65536 <= rd b1 + 256 * rd ((b1 + 1) mod 256) + rY r) \/
      (p = Debug /\ m = Indirect /\ b1 = 255 /\ b2 = 255) \/
      (m = IndirectYIndexed /\ reads_operand mn = true /\
       ds_crosses m r rd b1 <> (256 <=? ds_address m r rd b1 b2)) \/ Q)).
Proof.
  intros Hm Hi HQ. rewrite HQ. assert (m <> XIndexedIndirect) by (intros ->; discriminate).
  assert (m <> IndirectYIndexed) by (intros ->; discriminate). intuition congruence.
Qed.
End Iff.

(** Status equality from flags. *)
Lemma setNZ_pc r v : rPC (setNZ r v) = rPC r.
Proof. reflexivity. Qed.

Lemma odd_mod v : (v mod 2 =? 1) = Z.odd v.
Proof. rewrite Zmod_odd. destruct (Z.odd v); reflexivity. Qed.

Lemma adc_iff r v : regs_ok r -> u8 v ->
  (spec_adc r v = ds_adc r v <->
   ~ (ps_carry (rP r) = true \/ (128 <=? rA r) && (128 <=? v) <> snd (doc_adc (rA r) v 0))).
Proof.
  intros (HA & _) Hv. unfold spec_adc, ds_adc, doc_adc, carry_in, u8 in *. cbv zeta. cbn [snd].
  destruct (ps_carry (rP r)) eqn:Ec.
  - split; [|tauto]. intros E. exfalso. apply (f_equal rA) in E. cbn [rA withA] in E. lia.
  - rewrite andb_false_r, orb_false_l, andb_true_r. unfold negative. rewrite !Z.add_0_r.
    replace (256 <=? rA r + v) with (255 <? rA r + v) by lia.
    set (o := (_ || _)%bool). set (o' := ((128 <=? rA r) && (128 <=? v))%bool). split.
    + intros E [K|K]; [discriminate|]. apply (f_equal (fun r => ps_overflow (rP r))) in E.
      cbn in E. congruence.
    + intros K. assert (E : o' = o) by (destruct o, o'; try reflexivity; exfalso; apply K; right; discriminate).
      rewrite E. reflexivity.
Qed.

Lemma sbc_iff r v : regs_ok r -> u8 v ->
  (spec_sbc r v = ds_sbc r v <->
   ~ ((ps_carry (rP r) = true /\ v = 0) \/
      emulated_overflow (rA r) ((255 - v + carry_in (rP r)) mod 256) (ps_carry (rP r))
      <> snd (doc_sbc (rA r) v (carry_in (rP r))))).
Proof.
  intros (HA & _) Hv. unfold spec_sbc, ds_sbc, doc_sbc, u8 in *. cbv zeta. cbn [snd].
  change (if ps_carry (rP r) then 1 else 0) with (carry_in (rP r)).
  replace (if ps_carry (rP r) then 0 else 1) with (1 - carry_in (rP r))
    by (unfold carry_in; destruct (ps_carry (rP r)); reflexivity).
  set (o := (_ || (127 <? _))%bool).
  set (m' := (255 - v + carry_in (rP r)) mod 256).
  replace (negb (negative (rA r)) && negb (negative m') && ps_carry (rP r)
    || negative (rA r) && negative m' && negb (ps_carry (rP r)))%bool
    with (emulated_overflow (rA r) m' (ps_carry (rP r)))
    by (unfold emulated_overflow, negative; destruct (ps_carry (rP r)), (128 <=? rA r) eqn:?, (128 <=? m') eqn:?; cbn; lia).
  set (o' := emulated_overflow _ _ _). split.
  - intros E. assert (E1 := f_equal (fun r => ps_carry (rP r)) E).
    assert (E2 := f_equal (fun r => ps_overflow (rP r)) E).
    cbn [ps_carry ps_overflow rP withA withP setNZ setZ setN setV setC] in E1, E2.
    intros [[K ->]|K]; [|congruence]. subst m'. unfold carry_in in E1. rewrite K in E1. lia.
  - intros K. assert (E : o' = o) by (destruct o, o'; try reflexivity; exfalso; apply K; right; discriminate).
    rewrite E. replace (256 <=? rA r + m') with (v + (1 - carry_in (rP r)) <=? rA r); [reflexivity|].
    subst m'. unfold carry_in in *. destruct (ps_carry (rP r)); lia.
Qed.

Lemma compare_iff r a v : u8 a -> u8 v ->
  (spec_compare r a v = ds_compare r a v <-> ~ ((a = 0 /\ 1 <= v <= 127) \/ (v = 0 /\ 1 <= a <= 127))).
Proof.
  intros Ha Hv. unfold spec_compare, ds_compare, compare_rank, u8 in *.
  set (q := (if v =? 0 then _ else _) <=? _).
  assert (Q : q = (v <=? a) <-> ~ ((a = 0 /\ 1 <= v <= 127) \/ (v = 0 /\ 1 <= a <= 127))).
  { subst q. destruct (v =? 0) eqn:?, (a =? 0) eqn:?, (v <? 128) eqn:?, (a <? 128) eqn:?; lia. }
  rewrite <- Q. split; [|intros ->; reflexivity].
  intros E. apply (f_equal (fun r => ps_carry (rP r))) in E. exact E.
Qed.

Lemma stack_slot_eq s k : stack_slot s k = stack (s - k).
Proof. reflexivity. Qed.

Lemma branch_iff (b : bool) r b1 c : u8 b1 ->
  (branch_op b r b1 c =
   Some (if b
         then mkEffect (withPC r (ds_target r b1)) []
                (c + (if ds_target r b1 / 256 =? (rPC r + 2) mod 65536 / 256 then 1 else 2))
         else mkEffect (withPC r ((rPC r + length_of Relative) mod 65536)) [] c)
   <-> ~ Some b = Some true).
Proof.
  intros H1. unfold branch_op, ds_target. destruct b; (split; [|try congruence]).
  - intros E. exfalso. apply (f_equal (option_map (fun e => rPC (e_regs e)))) in E.
    cbn [option_map e_regs withPC rPC] in E. assert (E' : forall a b : Z, Some a = Some b -> a = b) by congruence.
    apply E' in E. lia.
  - congruence.
  - reflexivity.
Qed.

(** ** The complete list of departures *)
Lemma execute_iff p mn m c r rd b1 b2 : regs_ok r -> byte_valued rd -> u8 b1 -> u8 b2 ->
  legal mn m = true ->
  (execute p mn m c r rd b1 b2 = Some (ds_execute mn m c r rd b1 b2) <-> ~ departs p mn m r rd b1 b2).
Proof.
  intros Hr Hv H1 H2 Hm.
  assert (V : match m with Immediate | Accumulator => true | _ => in_mem m end = true -> u8 (ds_value m r rd b1 b2))
    by (apply value_u8; assumption).
  assert (T : forall A : Prop, A <-> A) by tauto.
  unfold departs, execute, ds_execute. cbv zeta.
  destruct mn; cbn [legal] in Hm; cbn [branch_taken].
  all: try (apply read_iff; [assumption..|reflexivity|assumption|reflexivity|reflexivity|];
    first [apply adc_iff; [assumption|apply V; destruct m; try discriminate; reflexivity]
          |apply sbc_iff; [assumption|apply V; destruct m; try discriminate; reflexivity]
          |apply compare_iff; [apply Hr|apply V; destruct m; try discriminate; reflexivity]
          |tauto]).
  all: try (apply store_iff; [assumption..|reflexivity|assumption|tauto]).
  all: try (apply modify_iff; [assumption..|reflexivity|first [assumption|destruct m; try discriminate; reflexivity]|tauto| |reflexivity];
    unfold shift_with, spec_asl, spec_lsr, spec_rol, spec_ror, bit, carry_in; rewrite ?odd_mod;
    first [reflexivity | destruct (ps_carry (rP r)); reflexivity]).
  all: try (destruct m; try discriminate; apply plain_iff; [reflexivity|discriminate|];
    unfold stack_slot, implied_op, branch_op, advance, stack, signed, word; rewrite ?Z.sub_0_r;
    solve [split; [tauto|]; intros _; reflexivity]).
  all: try (destruct m; try discriminate; apply plain_iff; [reflexivity|discriminate|]; apply branch_iff; exact H1).
  - (* BRK *)
    destruct m; try discriminate. apply plain_iff; [reflexivity|discriminate|]. split; [|tauto].
    intros E. exfalso. apply (f_equal (option_map (fun e => map snd (e_stores e)))) in E.
    cbn [option_map e_stores map snd] in E. unfold low, high in E.
    destruct Hr as (_ & _ & _ & _ & Hpc). unfold u16 in Hpc.
    assert (E' : forall a b d a' b' d' : Z, Some [a; b; d] = Some [a'; b'; d'] -> a = a' /\ b = b')
      by (intros * K; inversion K; auto).
    apply E' in E as [E1 E2]. lia.
  - (* DEY *)
    destruct m; try discriminate. apply plain_iff; [reflexivity|discriminate|].
    destruct Hr as (_ & HX & HY & _). unfold u8 in *. set (x := (rX r - 1) mod 256). set (y := (rY r - 1) mod 256).
    assert (X : 0 <= x < 256) by (subst x; lia). assert (Y : 0 <= y < 256) by (subst y; lia).
    assert (X0 : rX r = 1 <-> x = 0) by (subst x; lia). assert (Y0 : rY r = 1 <-> y = 0) by (subst y; lia).
    split.
    + intros E K. apply K. apply (f_equal (option_map (fun e => rP (e_regs e)))) in E.
      cbn [option_map] in E.
      assert (E1 := f_equal (option_map ps_zero) E). assert (E2 := f_equal (option_map ps_negative) E).
      cbn in E1, E2. injection E1 as E1. injection E2 as E2. unfold negative in E2. lia.
    + intros K. assert (K1 : (x =? 0) = (y =? 0)).
      { destruct (x =? 0) eqn:?, (y =? 0) eqn:?; try reflexivity; exfalso; apply K; lia. }
      assert (K2 : negative x = negative y).
      { unfold negative. destruct (128 <=? x) eqn:?, (128 <=? y) eqn:?; try reflexivity; exfalso; apply K; lia. }
      unfold implied_op, advance, setNZ. rewrite K1, K2. reflexivity.
  - (* JMP *)
    destruct m; try discriminate.
    + split; [|reflexivity]. intros _. intuition discriminate.
    + unfold unchecked, word, u8 in *. destruct (b1 + 256 * b2 + 1 <? 65536) eqn:E.
      * rewrite (Z.mod_small (b1 + 256 * b2 + 1)) by lia. split; [|reflexivity].
        intros _. assert (~ (b1 = 255 /\ b2 = 255)) by lia. intuition discriminate.
      * destruct p.
        -- split; [discriminate|]. intros K. exfalso. apply K. right. right. left. repeat split; lia.
        -- split; [|reflexivity]. intros _. intuition discriminate.
  - (* RTI *)
    destruct m; try discriminate. apply plain_iff; [reflexivity|discriminate|]. split; [|tauto].
    intros E. exfalso. apply (f_equal (option_map (fun e => rPC (e_regs e)))) in E.
    cbn [option_map e_regs withPC withP withS rPC] in E.
    change (stack_slot (rS r) (-2)) with (stack (rS r + 2)) in E.
    change (stack_slot (rS r) (-3)) with (stack (rS r + 3)) in E.
    assert (L : u8 (rd (stack (rS r + 2)))) by (apply Hv, stack_u16).
    assert (K : u8 (rd (stack (rS r + 3)))) by (apply Hv, stack_u16).
    unfold word, u8 in *. assert (E' : forall a b : Z, Some a = Some b -> a = b) by congruence.
    apply E' in E. lia.
Qed.

(** Apart from BRK, an instruction that can be executed stores what it should. *)
Lemma execute_stores p mn m c r rd b1 b2 e : regs_ok r -> byte_valued rd -> u8 b1 -> u8 b2 ->
  legal mn m = true -> mn <> Brk -> execute p mn m c r rd b1 b2 = Some e ->
  e_stores e = e_stores (ds_execute mn m c r rd b1 b2).
Proof.
  intros Hr Hv H1 H2 Hm Hb.
  assert (R : forall f, match m with Immediate => true | _ => in_mem m end = true ->
    read_op p m r rd b1 b2 c f = Some e -> e_stores e = []).
  { intros f K. rewrite (read_eq p m r rd b1 b2 c Hr Hv H1 H2 f K). destruct (_ && _); [discriminate|].
    intros E. injection E as <-. reflexivity. }
  assert (B : forall b, branch_op b r b1 c = Some e -> e_stores e = []).
  { intros b. unfold branch_op. destruct b; intros E; injection E as <-; reflexivity. }
  unfold execute, ds_execute. cbv zeta.
  destruct mn; cbn [legal] in Hm; try congruence; intros E.
  all: try (apply R in E; [exact E|exact Hm]).
  all: try (apply B in E; rewrite E; destruct (branch_taken _ _) as [[|]|]; reflexivity).
  all: try (unfold store_op in E; rewrite (address_eq p m r rd b1 b2 Hr Hv H1 Hm) in E;
    destruct (_ && _); [discriminate|]; injection E as <-; reflexivity).
  all: try (unfold implied_op in E; injection E as <-; cbn [e_stores]; unfold stack_slot; rewrite ?Z.sub_0_r; reflexivity).
  all: try (destruct (in_mem m) eqn:Em;
    [ rewrite (ds_value_eq m r rd b1 b2 Em);
      unfold modify_op in E; rewrite (address_eq p m r rd b1 b2 Hr Hv H1 Em) in E;
      unfold shift_with, spec_asl, spec_lsr, spec_rol, spec_ror, bit in E; unfold carry_in;
      destruct m; try discriminate; destruct (debug p && _); try discriminate;
      injection E as <-; destruct (ps_carry (rP r)); reflexivity
    | destruct m; try discriminate; unfold modify_op in E; cbv beta iota zeta delta [shift_with spec_asl spec_lsr spec_rol spec_ror] in E;
      injection E as <-; reflexivity ]).
  destruct m; try discriminate; [|destruct (unchecked _ _ _); [|discriminate]]; injection E as <-; reflexivity.
Qed.

(** ** On a bus *)
Lemma put_other mem a v b : b <> a -> put mem (a, v) b = mem b.
Proof. unfold put. cbn [fst snd]. intros E. destruct (b =? a) eqn:K; [lia|reflexivity]. Qed.
Lemma put_same mem a v : put mem (a, v) a = v.
Proof. unfold put. cbn [fst snd]. rewrite Z.eqb_refl. reflexivity. Qed.

Section OnBus.
Context {D : Type} `{Device D}.
Implicit Type cpu : mos6502 D.
Variables (p : profile) (I : address_map D -> Prop) (ram : Z -> Prop).
Hypothesis Hbus : ram_bus p I ram.

Lemma reads_peek m mem a : bus_reads p m mem -> u16 a -> peek p m a = mem a.
Proof. intros Hm Ha. unfold peek. rewrite (Hm a Ha). reflexivity. Qed.

Lemma reads_bytes m mem : I m -> bus_reads p m mem -> byte_valued mem.
Proof.
  intros Hi Hm a Ha. destruct Hbus as (Hr & _ & _). destruct (Hr m a Hi Ha) as (v & E & Hv).
  rewrite (Hm a Ha) in E. injection E as ->. exact Hv.
Qed.

Lemma store_all_put l : forall m mem, I m -> bus_reads p m mem -> stores_ok l ->
  Forall (fun av => ram (fst av)) l ->
  exists m', store_all p m l = Ok m' /\ I m' /\ bus_reads p m' (fold_left put l mem).
Proof.
  induction l as [|[a v] l IH]; intros m mem Hi Hm Hl Hram.
  - exists m. auto.
  - apply Forall_cons_iff in Hl as [[Ha Hv] Hl]. apply Forall_cons_iff in Hram as [Hra Hram].
    cbn [fst snd] in *. destruct Hbus as (Hr & Hw & _).
    destruct (Hw m a v Hi Ha Hra Hv) as (m1 & E & Hi1 & Hp).
    destruct (IH m1 (put mem (a, v))) as (m' & E' & Hi' & Hm'); [exact Hi1| |exact Hl|exact Hram|].
    + intros b Hb. destruct (Hr m1 b Hi1 Hb) as (w & Ew & _). rewrite Ew. f_equal.
      assert (K := Hp b Hb). unfold peek in K at 1. rewrite Ew in K. rewrite K. unfold put. cbn [fst snd].
      destruct (b =? a); [reflexivity|]. exact (reads_peek m mem b Hm Hb).
    + exists m'. cbn [store_all fold_left]. rewrite E. auto.
Qed.

Lemma effect_eq (e e' : effect) : e_regs e = e_regs e' -> e_stores e = e_stores e' -> e_cycles e = e_cycles e' -> e = e'.
Proof. destruct e, e'. cbn. congruence. Qed.

Lemma fetch_about cpu st mn m c b1 b2 : I (amap cpu) -> regs_ok (regs_of cpu) -> shows p cpu st ->
  ds_fetch st = Some (mn, m, c, b1, b2) -> ~ (p = Debug /\ 0xfffd < rPC (fst st)) ->
  about_to p cpu (snd st) mn m c b1 b2.
Proof.
  destruct st as [r mem]. intros Hi Hr [Er Hm] Hf Hp. cbn [fst snd] in *. cbn [ds_fetch] in Hf.
  destruct (decode (mem (rPC r))) as [[[mn' m'] c']|] eqn:Ed; [|discriminate]. injection Hf as <- <- <- <- <-.
  assert (Epc : reg_pc cpu = rPC r) by (rewrite <- Er; reflexivity).
  split; [exact Hr|]. split; [exact Hm|]. split; [exact (reads_bytes _ _ Hi Hm)|]. rewrite Epc.
  split; [destruct p; [right|left]; [|reflexivity]|auto].
  destruct (Z.le_gt_cases (rPC r) 0xfffd) as [K|K]; [exact K|]. exfalso. apply Hp. split; [reflexivity|lia].
Qed.

Lemma step_iff cpu st t st' : I (amap cpu) -> regs_ok (regs_of cpu) -> shows p cpu st ->
  ds_step st t st' -> ds_stores_in ram st ->
  ((exists cpu', observed_step p cpu = Ok (t, cpu') /\ shows p cpu' st') <-> ~ ds_departs p st).
Proof.
  intros Hi Hr Hs (e & He & -> & ->) Hst. assert (Hst' := Hst e He). clear Hst.
  unfold ds_effect in He. destruct (ds_fetch st) as [[[[[mn m] c] b1] b2]|] eqn:Hf; [|discriminate].
  injection He as <-.
  assert (Hs' := Hs). destruct Hs' as [Er Hm].
  assert (Hv : byte_valued (snd st)) by exact (reads_bytes _ _ Hi Hm).
  assert (Hmode : legal mn m = true).
  { destruct st as [r mem]. cbn [ds_fetch] in Hf. destruct (decode (mem (rPC r))) as [[[mn' m'] c']|] eqn:Ed; [|discriminate].
    injection Hf as <- <- <- <- <-. exact (decode_legal _ _ _ _ Ed). }
  assert (Dp : forall A : Prop, ~ (p = Debug /\ 0xfffd < rPC (fst st)) ->
    (A <-> ~ departs p mn m (fst st) (snd st) b1 b2) -> (A <-> ~ ds_departs p st)).
  { intros A Hp HA. rewrite HA. unfold ds_departs. rewrite Hf. split.
    - intros K [K'|(mn' & m' & c' & b1' & b2' & E & K')]; [tauto|]. injection E as <- <- <- <- <-. tauto.
    - intros K K'. apply K. right. exists mn, m, c, b1, b2. auto. }
  assert (Hdec : (p = Debug /\ 0xfffd < rPC (fst st)) \/ ~ (p = Debug /\ 0xfffd < rPC (fst st))).
  { destruct p; [|right; intuition discriminate]. destruct (Z_lt_dec 0xfffd (rPC (fst st))); [left|right]; tauto. }
  destruct Hdec as [Hp|Hp].
  { split; [|intros K; exfalso; apply K; left; exact Hp]. intros (cpu' & E & _). exfalso.
    rewrite (next_refines p cpu (snd st) Hr Hm Hv) in E. unfold step in E. rewrite Er in E.
    destruct Hp as [-> Hp]. unfold unchecked in E.
    replace (rPC (fst st) + 2 <? 65536) with false in E by lia.
    destruct (rPC (fst st) + 1 <? 65536); discriminate. }
  apply (Dp _ Hp). clear Dp.
  assert (Ha := fetch_about cpu st mn m c b1 b2 Hi Hr Hs Hf Hp).
  destruct (about_bytes _ _ _ _ _ _ _ _ Ha) as [H1 H2].
  rewrite (about_step _ _ _ _ _ _ _ _ Ha), Er.
  assert (X := execute_iff p mn m c (fst st) (snd st) b1 b2). rewrite <- Er in X at 1.
  specialize (X Hr Hv H1 H2 Hmode). rewrite Er in Hr.
  set (d := ds_execute mn m c (fst st) (snd st) b1 b2) in *.
  split.
  - intros (cpu' & E & Es). apply X. unfold spec_outcome in E.
    destruct (execute p mn m c (fst st) (snd st) b1 b2) as [e|] eqn:Ee; [|discriminate]. f_equal.
    destruct (store_all p (amap cpu) (e_stores e)) as [m'|] eqn:Em; [|discriminate].
    injection E as Ec Ecpu. subst cpu'. destruct Es as [Es Hmem].
    rewrite regs_of_cpu_with in Es. cbn [fst snd] in Es, Hmem.
    assert (Hbrk : mn = Brk \/ mn <> Brk) by (destruct mn; (left; reflexivity) || (right; discriminate)).
    destruct Hbrk as [->|Hb].
    + exfalso. clear X. destruct (execute_ok p _ m c (fst st) (snd st) b1 b2 e Hv Hr H1 H2 Ee) as [_ Ks].
      subst d. set (r := fst st) in *. set (mem := snd st) in *. clearbody r mem.
      cbn [execute] in Ee. cbv zeta in Ee. injection Ee as <-.
      cbn [ds_execute] in Hst', Hmem. cbv zeta in Hst', Hmem. cbn [e_stores] in Hst', Hmem, Em, Ks.
      rewrite !stack_slot_eq in Hst', Hmem. rewrite Z.sub_0_r in Hst', Hmem.
      match type of Em with store_all p _ ?l = _ => set (l0 := l) in * end.
      destruct (store_all_put l0 (amap cpu) mem Hi Hm Ks) as (m1 & Em1 & _ & Hm1).
      { subst l0. repeat (apply Forall_cons_iff in Hst' as [? Hst']). repeat constructor; assumption. }
      rewrite Em1 in Em. injection Em as ->. subst l0.
      assert (Hst1 := stack_u16 (rS r)). assert (Hst2 := stack_u16 (rS r - 1)).
      assert (Z2 := eq_trans (eq_sym (Hm1 _ Hst1)) (Hmem _ Hst1)).
      assert (Z4 := eq_trans (eq_sym (Hm1 _ Hst2)) (Hmem _ Hst2)).
      destruct Hr as (_ & _ & _ & _ & Hpc). unfold u16 in Hpc.
      assert (N1 : stack (rS r) <> stack (rS r - 1)) by (unfold stack; lia).
      assert (N2 : stack (rS r) <> stack (rS r - 2)) by (unfold stack; lia).
      assert (N3 : stack (rS r - 1) <> stack (rS r - 2)) by (unfold stack; lia).
      cbn [fold_left] in Z2, Z4.
      rewrite !(put_other _ (stack (rS r - 2))), !(put_other _ (stack (rS r - 1)) _ (stack (rS r))), !put_same in Z2 by congruence.
      rewrite !(put_other _ (stack (rS r - 2))), !put_same in Z4 by congruence.
      unfold low, high in Z2, Z4. assert (E' : forall a b : Z, Ok a = Ok b -> a = b) by congruence.
      apply E' in Z2, Z4. lia.
    + apply effect_eq; [exact Es| |exact Ec].
      exact (execute_stores p mn m c (fst st) (snd st) b1 b2 e Hr Hv H1 H2 Hmode Hb Ee).
  - intros K. apply X in K. rewrite K. unfold spec_outcome.
    destruct (execute_ok p mn m c (fst st) (snd st) b1 b2 d Hv Hr H1 H2 K) as [Kr Ks].
    destruct (store_all_put (e_stores d) (amap cpu) (snd st) Hi Hm Ks Hst') as (m' & Em & Hi' & Hm').
    rewrite Em. eexists. split; [reflexivity|]. split; [apply regs_of_cpu_with|exact Hm'].
Qed.

(** A departure-free run of the machine is a run of the emulator. *)
Lemma run_shows k t st st' : ds_run p ram k t st st' -> forall cpu,
  I (amap cpu) -> regs_ok (regs_of cpu) -> shows p cpu st ->
  exists cpu', steps p k t cpu cpu' /\ shows p cpu' st' /\ I (amap cpu') /\ regs_ok (regs_of cpu').
Proof.
  induction 1 as [st|k t c st st1 st2 Hs Hd _ Hst _ IH]; intros cpu Hi Hr Hsh.
  - exists cpu. split; [constructor|auto].
  - destruct (step_iff cpu st c st1 Hi Hr Hsh Hs Hst) as [_ K]. destruct (K Hd) as (cpu1 & E & Hsh1).
    destruct (step_inv p I ram Hbus cpu c cpu1 Hi Hr E) as (Hi1 & Hr1 & _).
    destruct (IH cpu1 Hi1 Hr1 Hsh1) as (cpu2 & Hk & K2). exists cpu2. split; [|exact K2].
    econstructor; eassumption.
Qed.
End OnBus.
