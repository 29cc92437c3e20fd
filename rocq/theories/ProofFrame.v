(** Lemmas for PropertiesFrame.v. *)
From Verif Require Import Base Arith ModelMap ModelStep ModelRegs6502 ModelCpu6502 ModelOperand
  ModelIsa6502 ModelRun6502 SpecMap ProofMap Link6502 ProofStep6502 ProofRun6502 ProofBus SpecInstr ProofInstr.
From Verif Require Import Spec6502 SpecBus SpecFrame.

(** ** Which modes a mnemonic can have *)
Definition addresses (m : addressing_mode) : bool :=
  match m with
  | Absolute | AbsoluteIndexedWithX | AbsoluteIndexedWithY | ZeroPage | ZeroPageIndexedWithX
  | ZeroPageIndexedWithY | XIndexedIndirect | IndirectYIndexed => true
  | _ => false
  end.
Definition possible (mn : mnemonic) (m : addressing_mode) : bool :=
  match mn with
  | Lda | Ldx | Ldy | Adc | Sbc | And | Ora | Eor | Bit | Cmp | Cpx | Cpy =>
      match m with Immediate => true | _ => addresses m end
  | Sta | Stx | Sty => addresses m
  | Asl | Lsr | Rol | Ror => match m with Accumulator => true | _ => addresses m end
  | Inc | Dec => addresses m
  | Jmp => match m with Absolute | Indirect => true | _ => false end
  | _ => match m with Implied | Relative | Absolute => true | _ => false end
  end.

Lemma decode_possible b mn m c : decode b = Some (mn, m, c) -> possible mn m = true.
Proof.
  unfold decode. intros Hd. destruct (find _ opcode_table) as [[k d]|] eqn:E; [|discriminate].
  injection Hd as ->. apply find_some in E as [Hin _].
  assert (F : forallb (fun row => match snd row with (mn, m, _) => possible mn m end) opcode_table = true)
    by (vm_compute; reflexivity).
  rewrite forallb_forall in F. exact (F _ Hin).
Qed.

(** ** The operand address *)
Lemma address_cases p mn m r rd b1 b2 : regs_ok r -> byte_valued rd -> u8 b1 -> addresses m = true -> mn <> Jmp ->
  operand_address p m r rd b1 b2 =
  if match p with Debug => true | Release => false end &&
     match m with
     | XIndexedIndirect => rX r =? 255
     | IndirectYIndexed => 65535 <? word (pointer_lo m r rd b1) (pointer_hi m r rd b1) + rY r
     | _ => false
     end
  then None
  else Some (effective m r b1 b2 (pointer_lo m r rd b1) (pointer_hi m r rd b1)).
Proof.
  intros (HA & HX & HY & _) Hv H1 Hm _. unfold u8 in *.
  destruct m; try discriminate; cbn [operand_address effective]; rewrite ?andb_false_r; try reflexivity;
    unfold pointer_lo, pointer_hi; cbn [pointer_reads nth].
  - assert (L : u8 (rd b1)) by (apply Hv; unfold u16; lia).
    assert (K : u8 (rd ((b1 + 1) mod 256))) by (apply Hv; unfold u16; lia).
    unfold unchecked, word, u8 in *.
    destruct (rd b1 + 256 * rd ((b1 + 1) mod 256) + rY r <? 65536) eqn:E.
    + replace (65535 <? rd b1 + 256 * rd ((b1 + 1) mod 256) + rY r) with false by lia.
      rewrite andb_false_r. rewrite (Z.mod_small (rd b1 + _ + _)) by lia. reflexivity.
    + replace (65535 <? rd b1 + 256 * rd ((b1 + 1) mod 256) + rY r) with true by lia.
      destruct p; reflexivity.
  - unfold unchecked. destruct (rX r + 1 <? 256) eqn:E.
    + replace (rX r =? 255) with false by lia. rewrite andb_false_r. reflexivity.
    + replace (rX r =? 255) with true by lia. destruct p; reflexivity.
Qed.

Definition overflows (mn : mnemonic) (m : addressing_mode) (r : registers) (rd : Z -> Z) (b1 b2 : Z) : bool :=
  match m with
  | XIndexedIndirect => rX r =? 255
  | IndirectYIndexed => 65535 <? word (pointer_lo m r rd b1) (pointer_hi m r rd b1) + rY r
  | Indirect => match mn with Jmp => word b1 b2 =? 65535 | _ => false end
  | _ => false
  end.

Lemma overflows_iff mn m r rd b1 b2 : overflows mn m r rd b1 b2 = true <-> address_overflow mn m r rd b1 b2.
Proof.
  unfold overflows, address_overflow. split.
  - destruct m; try discriminate; [|intros E|intros E].
    + destruct mn; try discriminate. intros E. right. right. repeat split. lia.
    + right. left. split; [reflexivity|lia].
    + left. split; [reflexivity|lia].
  - intros [[-> E]|[[-> E]|(-> & -> & E)]]; lia.
Qed.

(** ** When an instruction can be executed, and what it writes *)
Lemma execute_cases p mn m c r rd b1 b2 :
  regs_ok r -> byte_valued rd -> u8 b1 -> u8 b2 -> possible mn m = true ->
  if match p with Debug => true | Release => false end && overflows mn m r rd b1 b2
  then execute p mn m c r rd b1 b2 = None
  else exists e, execute p mn m c r rd b1 b2 = Some e /\
    map fst (e_stores e) = writes_made mn m r b1 b2 (pointer_lo m r rd b1) (pointer_hi m r rd b1).
Proof.
  intros Hr Hv H1 H2 Hm.
  assert (A : addresses m = true -> mn <> Jmp -> operand_address p m r rd b1 b2 =
    if match p with Debug => true | Release => false end && overflows mn m r rd b1 b2 then None
    else Some (effective m r b1 b2 (pointer_lo m r rd b1) (pointer_hi m r rd b1))).
  { intros Ha Hj. rewrite (address_cases p mn m r rd b1 b2 Hr Hv H1 Ha Hj). destruct m; try discriminate; reflexivity. }
  assert (Fi : overflows mn Immediate r rd b1 b2 = false) by reflexivity.
  assert (Fa : overflows mn Accumulator r rd b1 b2 = false) by reflexivity.
  assert (Rd : forall f, match m with Immediate => true | _ => addresses m end = true -> mn <> Jmp ->
    if match p with Debug => true | Release => false end && overflows mn m r rd b1 b2
    then read_op p m r rd b1 b2 c f = None
    else exists e, read_op p m r rd b1 b2 c f = Some e /\ map fst (e_stores e) = []).
  { intros f Ha Hj. unfold read_op, operand_value.
    destruct (addresses m) eqn:Ea.
    - rewrite (A eq_refl Hj). destruct (_ && _); destruct m; try discriminate; try reflexivity;
        eexists; split; reflexivity.
    - destruct m; try discriminate. rewrite Fi, andb_false_r. eexists. split; reflexivity. }
  assert (St : forall v, addresses m = true -> mn <> Jmp ->
    if match p with Debug => true | Release => false end && overflows mn m r rd b1 b2
    then store_op p m r rd b1 b2 c v = None
    else exists e, store_op p m r rd b1 b2 c v = Some e /\
      map fst (e_stores e) = [effective m r b1 b2 (pointer_lo m r rd b1) (pointer_hi m r rd b1)]).
  { intros v Ha Hj. unfold store_op. rewrite (A Ha Hj). destruct (_ && _); [reflexivity|].
    eexists. split; reflexivity. }
  assert (Mo : forall f, match m with Accumulator => true | _ => addresses m end = true -> mn <> Jmp ->
    if match p with Debug => true | Release => false end && overflows mn m r rd b1 b2
    then modify_op p m r rd b1 b2 c f = None
    else exists e, modify_op p m r rd b1 b2 c f = Some e /\
      map fst (e_stores e) = if in_memory m then [effective m r b1 b2 (pointer_lo m r rd b1) (pointer_hi m r rd b1)] else []).
  { intros f Ha Hj. unfold modify_op.
    destruct (addresses m) eqn:Ea.
    - destruct m; try discriminate; cbn [in_memory]; rewrite (A eq_refl Hj); destruct (_ && _); try reflexivity;
        (destruct (f r (rd _)); eexists; split; reflexivity).
    - destruct m; try discriminate. rewrite Fa, andb_false_r. cbn [in_memory].
      destruct (f r (rA r)). eexists. split; reflexivity. }
  assert (Im : forall e, match m with Implied | Relative | Absolute => true | _ => false end = true ->
    if match p with Debug => true | Release => false end && overflows mn m r rd b1 b2
    then Some e = None
    else exists e', Some e = Some e' /\ map fst (e_stores e') = map fst (e_stores e)).
  { intros e Ha. replace (overflows mn m r rd b1 b2) with false by (destruct m; try discriminate; reflexivity).
    rewrite andb_false_r. exists e. split; reflexivity. }
  assert (Br : forall cond, match m with Implied | Relative | Absolute => true | _ => false end = true ->
    if match p with Debug => true | Release => false end && overflows mn m r rd b1 b2
    then branch_op cond r b1 c = None
    else exists e, branch_op cond r b1 c = Some e /\ map fst (e_stores e) = []).
  { intros [] Ha; unfold branch_op; exact (Im _ Ha). }
  destruct mn; cbn [execute writes_made possible] in *;
    try (apply Rd; [exact Hm|discriminate]);
    try (apply St; [exact Hm|discriminate]);
    try (apply Mo; [exact Hm|discriminate]);
    try (unfold implied_op; exact (Im _ Hm));
    try (apply Br; exact Hm).
  all: try (apply Mo; [destruct m; try discriminate; reflexivity|discriminate]).
  destruct m; try discriminate.
  - rewrite andb_false_r. eexists. split; reflexivity.
  - cbn [overflows]. unfold unchecked, word, u8 in *.
    destruct (b1 + 256 * b2 + 1 <? 65536) eqn:E.
    + replace (b1 + 256 * b2 =? 65535) with false by lia. rewrite andb_false_r. eexists. split; reflexivity.
    + replace (b1 + 256 * b2 =? 65535) with true by lia. destruct p; [reflexivity|]. eexists. split; reflexivity.
Qed.

(** ** Stores on a plain map *)
Lemma write_ok_iff p m a v : plain_map m -> u8 v ->
  (exists m' w, am_write p m a v = Ok (m', WOk w)) <-> ram_at m a.
Proof.
  intros Hp Hv. split.
  - intros (m' & w & E). destruct (plain_write_shape p m a v m' w Hp Hv E)
      as (l1 & e & l2 & d' & -> & Hc & Hk & _). exists e. split; [apply in_elt|]. split; [exact Hc|exact Hk].
  - intros Ha. destruct (plain_write_ok p m a v Hp Hv Ha) as (m' & E). eauto.
Qed.

Lemma stores_panic_iff p : forall l m, plain_map m -> stores_ok l ->
  store_all p m l = Panic <-> exists a, In a (map fst l) /\ ~ ram_at m a.
Proof.
  induction l as [|[a v] l IH]; intros m Hp Hl; cbn [store_all map fst].
  - split; [discriminate|]. intros (a & [] & _).
  - apply Forall_cons_iff in Hl as [[Ha Hv] Hl]. cbn [fst snd] in *.
    destruct (am_write p m a v) as [[m' [w|]]|] eqn:E.
    + destruct (plain_write p m a v m' w Hp Hv E) as (Hp' & Hra & _).
      rewrite (IH m' Hp' Hl).
      assert (R : ram_at m a) by (apply (write_ok_iff p m a v Hp Hv); eauto).
      split.
      * intros (b & Hb & Hn). exists b. split; [right; exact Hb|]. rewrite <- Hra. exact Hn.
      * intros (b & [<-|Hb] & Hn); [contradiction|]. exists b. split; [exact Hb|]. rewrite Hra. exact Hn.
    + split; [|reflexivity]. intros _. exists a. split; [left; reflexivity|].
      intros R. apply (write_ok_iff p m a v Hp Hv) in R as (m1 & w & E'). congruence.
    + split; [|reflexivity]. intros _. exists a. split; [left; reflexivity|].
      intros R. apply (write_ok_iff p m a v Hp Hv) in R as (m1 & w & E'). congruence.
Qed.

Lemma stores_frame p : forall l m m', plain_map m -> stores_ok l -> store_all p m l = Ok m' ->
  forall a, ~ In a (map fst l) -> peek p m' a = peek p m a.
Proof.
  induction l as [|[a v] l IH]; intros m m' Hp Hl E b Hb; cbn [store_all map fst In] in *.
  - injection E as <-. reflexivity.
  - apply Forall_cons_iff in Hl as [[Ha Hv] Hl]. cbn [fst snd] in *.
    destruct (am_write p m a v) as [[m1 [w|]]|] eqn:Ew; try discriminate.
    destruct (plain_write p m a v m1 w Hp Hv Ew) as (Hp' & _ & Hf).
    rewrite (IH m1 m' Hp' Hl E b) by tauto. rewrite Hf.
    replace (b =? a) with false; [reflexivity|]. symmetry. apply Z.eqb_neq. intros ->. tauto.
Qed.

(** ** Registers and flags *)
Lemma execute_registers p mn m c r rd b1 b2 e : possible mn m = true -> execute p mn m c r rd b1 b2 = Some e ->
  (forall x, ~ In x (may_change mn m) -> get (e_regs e) x = get r x) /\
  (forall f, ~ In f (flags_changed mn) -> flag_of (e_regs e) f = flag_of r f).
Proof.
  assert (Rd : forall f, read_op p m r rd b1 b2 c f = Some e -> exists v, e_regs e = advance m (f r v)).
  { intros f E. unfold read_op in E. destruct (operand_value p m r rd b1 b2) as [v|]; [|discriminate].
    injection E as <-. exists v. reflexivity. }
  assert (St : forall v, store_op p m r rd b1 b2 c v = Some e -> e_regs e = advance m r).
  { intros v E. unfold store_op in E. destruct (operand_address p m r rd b1 b2); [|discriminate].
    injection E as <-. reflexivity. }
  assert (Mo : forall f, modify_op p m r rd b1 b2 c f = Some e ->
    exists v, e_regs e = advance m (match m with Accumulator => withA (snd (f r v)) (fst (f r v)) | _ => snd (f r v) end)).
  { intros f E. unfold modify_op in E.
    destruct m; try (destruct (operand_address _ _ _ _ _ _) as [a|]; [|discriminate]; exists (rd a);
      destruct (f r (rd a)) as [v r'] eqn:Ef; injection E as <-; reflexivity).
    exists (rA r). destruct (f r (rA r)) as [v r'] eqn:Ef. injection E as <-. reflexivity. }
  assert (Br : forall cond, branch_op cond r b1 c = Some e -> exists x, e_regs e = withPC r x).
  { intros [] E; unfold branch_op in E; injection E as <-; eexists; reflexivity. }
  intros Hm E.
  destruct mn; cbn [execute may_change flags_changed possible] in *;
    try (destruct (Rd _ E) as (v & ->));
    try (rewrite (St _ E));
    try (destruct (Mo _ E) as (v & ->));
    try (unfold implied_op in E; injection E as <-);
    try (destruct (Br _ E) as (x & ->));
    try (destruct m; [..]; injection E as <-);
    try (destruct m; try destruct (unchecked _ _ _); try discriminate; injection E as <-).
  all: destruct r as [A X Y S PC P], P.
  all: (split; [intros [] Hn|intros [] Hn]);
    try (exfalso; apply Hn; cbn [In]; tauto).
  all: try reflexivity.
  all: destruct m; try reflexivity; try discriminate; try (exfalso; apply Hn; cbn [In]; tauto).
Qed.

Definition flag_in (f : flag) (l : list flag) : bool :=
  existsb (fun g => match f, g with
    | FC, FC | FZ, FZ | FI, FI | FD, FD | FB, FB | FU, FU | FV, FV | FN, FN => true | _, _ => false end) l.
Lemma flag_in_iff f l : flag_in f l = true <-> In f l.
Proof.
  unfold flag_in. rewrite existsb_exists. split.
  - intros (g & Hg & E). destruct f, g; try discriminate; exact Hg.
  - intros Hf. exists f. split; [exact Hf|]. destruct f; reflexivity.
Qed.

(** The effect with flag [f] set by hand unless the instruction sets it. *)
Definition carry_flag (mn : mnemonic) (f : flag) (v : bool) (e : effect) : effect :=
  if flag_in f (flags_changed mn) then e
  else mkEffect (set_flag f v (e_regs e)) (e_stores e) (e_cycles e).

Lemma execute_flag p mn m c r rd b1 b2 f v : flag_in f (flags_used mn) = false ->
  execute p mn m c (set_flag f v r) rd b1 b2 = option_map (carry_flag mn f v) (execute p mn m c r rd b1 b2).
Proof.
  intros Hu. destruct r as [A X Y S PC P].
  assert (Ad : operand_address p m (set_flag f v (mkRegs A X Y S PC P)) rd b1 b2
             = operand_address p m (mkRegs A X Y S PC P) rd b1 b2) by reflexivity.
  assert (Va : operand_value p m (set_flag f v (mkRegs A X Y S PC P)) rd b1 b2
             = operand_value p m (mkRegs A X Y S PC P) rd b1 b2) by reflexivity.
  destruct P as [fc fz fi fd fb fu fv fn].
  destruct mn, f; try discriminate Hu; cbn [execute];
    unfold read_op, store_op, modify_op, implied_op, branch_op;
    rewrite ?Ad, ?Va; try reflexivity.
  all: try (destruct (operand_value p m _ rd b1 b2); reflexivity).
  all: try (destruct (operand_address p m _ rd b1 b2); reflexivity).
  all: try (destruct m; try (destruct (operand_address p _ _ rd b1 b2)); reflexivity).
  all: try (destruct m; try destruct (unchecked _ _ _); reflexivity).
  all: try (cbn; match goal with |- context [if ?b then _ else _] => destruct b end; reflexivity).
Qed.
