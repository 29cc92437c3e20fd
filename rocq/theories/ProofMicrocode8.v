(** Proofs about CHIP-8 microcode operations. *)
From Verif Require Import Base Arith ModelMap ModelU12 ModelDisplay ModelChip8 ModelOpsChip8 ModelRunChip8 SpecMap Link6502.
From Verif Require Import SpecChip8 SpecChip8Parts ProofChip8 ProofChip8Parts ProofChip8Step ProofChip8Reach SpecMicrocode8.

Lemma item_cons {A} (a : A) l i d : item (a :: l) i d = if i =? 0 then a else item l (i - 1) d.
Proof.
  unfold item. destruct (i <? 0) eqn:E.
  - replace (i =? 0) with false by lia. replace (i - 1 <? 0) with true by lia. reflexivity.
  - destruct (i =? 0) eqn:E0.
    + replace i with 0 by lia. reflexivity.
    + replace (i - 1 <? 0) with false by lia. replace (Z.to_nat i) with (Datatypes.S (Z.to_nat (i - 1))) by lia. reflexivity.
Qed.

Lemma fill_row_law v row : forall skip take r s t, 0 <= skip -> 0 <= take ->
  fill_row skip take v row = (r, (s, t)) ->
  s = Z.max 0 (skip - Z.of_nat (length row)) /\
  t = take - Z.max 0 (Z.min take (Z.of_nat (length row) - skip)) /\
  forall x, item r x false =
    if (0 <=? x) && (x <? Z.of_nat (length row)) && (skip <=? x) && (x <? skip + take) then v else item row x false.
Proof.
  induction row as [|b row IH]; intros skip take r s t Hs Ht E; cbn [fill_row length] in *.
  - assert (r = []) as -> by congruence. assert (s = skip) as -> by congruence. assert (t = take) as -> by congruence.
    split; [lia|]. split; [lia|]. intros x. destruct ((0 <=? x) && _ && _ && _) eqn:K; [lia|reflexivity].
  - destruct (0 <? skip) eqn:E0.
    + destruct (fill_row (skip - 1) take v row) as [r' [s' t']] eqn:Er.
      destruct (IH (skip - 1) take r' s' t' ltac:(lia) Ht Er) as (E1 & E2 & E3).
      assert (r = b :: r') as -> by congruence. assert (s = s') as -> by congruence. assert (t = t') as -> by congruence.
      split; [lia|]. split; [lia|]. intros x. rewrite !item_cons, E3.
      destruct (x =? 0) eqn:Ex.
      * destruct ((0 <=? x) && _ && _ && _) eqn:K; [lia|reflexivity].
      * match goal with |- (if ?a then _ else _) = (if ?b then _ else _) => replace b with a by lia end. reflexivity.
    + destruct (0 <? take) eqn:E1.
      * destruct (fill_row skip (take - 1) v row) as [r' [s' t']] eqn:Er.
        destruct (IH skip (take - 1) r' s' t' Hs ltac:(lia) Er) as (F1 & F2 & F3).
        assert (r = v :: r') as -> by congruence. assert (s = s') as -> by congruence. assert (t = t') as -> by congruence.
        split; [lia|]. split; [lia|]. intros x. rewrite !item_cons, F3.
        destruct (x =? 0) eqn:Ex.
        -- destruct ((0 <=? x) && _ && _ && _) eqn:K; [reflexivity|lia].
        -- match goal with |- (if ?a then _ else _) = (if ?b then _ else _) => replace b with a by lia end. reflexivity.
      * assert (r = b :: row) as -> by congruence. assert (s = skip) as -> by congruence. assert (t = take) as -> by congruence.
        split; [lia|]. split; [lia|]. intros x. destruct ((0 <=? x) && _ && _ && _) eqn:K; [lia|reflexivity].
Qed.

Lemma fill_rows_law v d : forall skip take, Forall (fun row => length row = 64%nat) d -> 0 <= skip -> 0 <= take ->
  forall x y, lit (fill_rows skip take v d) x y =
    if (0 <=? x) && (x <? 64) && (0 <=? y) && (y <? Z.of_nat (length d)) &&
       (skip <=? 64 * y + x) && (64 * y + x <? skip + take) then v else lit d x y.
Proof.
  induction d as [|row d IH]; intros skip take F Hs Ht x y; cbn [fill_rows].
  - cbn [length]. replace ((0 <=? x) && (x <? 64) && (0 <=? y) && (y <? Z.of_nat 0) && (skip <=? 64 * y + x) && (64 * y + x <? skip + take))
      with false by lia. reflexivity.
  - inversion_clear F as [|? ? Hl F']. destruct (fill_row skip take v row) as [r [s t]] eqn:Er.
    destruct (fill_row_law v row skip take r s t Hs Ht Er) as (-> & -> & Hr). rewrite Hl in *.
    unfold lit. rewrite !item_cons. destruct (y =? 0) eqn:Ey.
    + rewrite Hr. cbn [length].
      match goal with |- (if ?a then _ else _) = (if ?b then _ else _) => replace b with a by lia end. reflexivity.
    + fold (lit (fill_rows (Z.max 0 (skip - Z.of_nat 64)) (take - Z.max 0 (Z.min take (Z.of_nat 64 - skip))) v d) x (y - 1)).
      fold (lit d x (y - 1)). rewrite IH by (assumption || lia). cbn [length].
      match goal with |- (if ?a then _ else _) = (if ?b then _ else _) => replace b with a by lia end. reflexivity.
Qed.

Lemma usize_ok p v : 0 <= v < usize_modulus -> checked p usize_modulus v = Ok v.
Proof.
  intros H. unfold checked. replace ((0 <=? v) && (v <? usize_modulus)) with true by lia. reflexivity.
Qed.

Lemma range_law p c x y x' y' on : well_formed c ->
  0 <= x < 2 ^ 57 -> 0 <= y < 2 ^ 57 -> 0 <= x' < 2 ^ 57 -> 0 <= y' < 2 ^ 57 ->
  exec_set_range p c (x, y) (x', y') on =
  if match p with Debug => (x <=? x') && (y <=? y') | Release => true end
  then Ok (set_display c (fill_rows (64 * y + x) ((64 * (y' - y) + (x' - x) + 1) mod usize_modulus) on (c8_display c)))
  else Panic.
Proof.
  intros W Hx Hy Hx' Hy'. unfold exec_set_range, mul_usize, add_usize, sub_usize. change X_MAX with 64.
  rewrite (usize_ok p (y * 64)) by (unfold usize_modulus; lia). cbn [bind].
  rewrite (usize_ok p (y * 64 + x)) by (unfold usize_modulus; lia). cbn [bind].
  replace (y * 64 + x) with (64 * y + x) by lia.
  destruct p.
  - destruct (y <=? y') eqn:Ey.
    2:{ rewrite andb_false_r. unfold checked at 1. replace ((0 <=? y' - y) && (y' - y <? usize_modulus)) with false by (unfold usize_modulus; lia). reflexivity. }
    rewrite (usize_ok Debug (y' - y)) by (unfold usize_modulus; lia). cbn [bind].
    rewrite (usize_ok Debug ((y' - y) * 64)) by (unfold usize_modulus; lia). cbn [bind].
    destruct (x <=? x') eqn:Ex; cbn [andb].
    2:{ unfold checked at 1. replace ((0 <=? x' - x) && (x' - x <? usize_modulus)) with false by (unfold usize_modulus; lia). reflexivity. }
    rewrite (usize_ok Debug (x' - x)) by (unfold usize_modulus; lia). cbn [bind].
    rewrite (usize_ok Debug ((y' - y) * 64 + (x' - x))) by (unfold usize_modulus; lia). cbn [bind].
    rewrite (usize_ok Debug ((y' - y) * 64 + (x' - x) + 1)) by (unfold usize_modulus; lia). cbn [bind].
    rewrite Z.mod_small by (unfold usize_modulus; lia). do 4 f_equal. lia.
  - unfold checked. 
    assert (K : forall v, (if (0 <=? v) && (v <? usize_modulus) then Ok v else Ok (v mod usize_modulus)) = Ok (v mod usize_modulus)).
    { intros v. destruct ((0 <=? v) && (v <? usize_modulus)) eqn:E; [|reflexivity]. rewrite Z.mod_small by lia. reflexivity. }
    repeat (rewrite K; cbn [bind]). do 3 f_equal.
    rewrite Z.mul_mod_idemp_l, <- Z.add_mod, Z.add_mod_idemp_l by (unfold usize_modulus; lia). f_equal. lia.
Qed.

Section Exact.
Variables (e : environment) (p : profile) (c : chip8) (w : world).
Hypotheses (W : well_formed c).

Definition meets (r : res (chip8 * world)) (want : option ((part -> Z) * world)) : Prop :=
  match want with
  | Some (g, w1) => exists c', r = Ok (c', w1) /\ well_formed c' /\ looks c' g
  | None => r = Panic
  end.

Lemma exact mc : mc_operands mc -> meets (execute_mut e p (c, w) mc) (actual e p (observe c) w mc).
Proof.
  intros Hm.
  assert (Hsame : looks c (observe c)) by (intros q; reflexivity).
  assert (Hu8 : forall v, u8 (v mod 256)) by (intros; unfold u8; lia).
  assert (Hu16 : forall v, u16 (v mod 65536)) by (intros; unfold u16; lia).
  destruct mc as [a v|[r|[|]] v|[r|[|]] v|r v|[|] v|[|] v|r v|v|v|k| |[x y] v|[x y] [x' y'] v]; cbn [execute_mut mc_operands] in *.
  - cbn [actual documented]. destruct Hm as [Ha Hv]. unfold u16 in Ha. destruct (a <=? 0xfff) eqn:E.
    + destruct (ex_mem p c a v W ltac:(lia) Hv) as (c' & E1 & [W1 L1] & _). rewrite E1. exists c'. auto.
    + cbn [meets]. rewrite (ex_mem_out p c a v W) by lia. reflexivity.
  - cbn [exec_write8]. destruct (has r) eqn:Hr.
    + destruct (ex_gp c (gp_index r) v W (has_index r Hr) Hm) as (gp & E1 & [W1 L1]). rewrite E1. cbn [bind].
      destruct r; try discriminate; cbn [actual documented meets]; eexists; (split; [reflexivity|]); auto.
    + apply has_not in Hr as ->. rewrite (ex_gp_vf c v W). reflexivity.
  - cbn [actual documented meets exec_write8]. unfold clock_with_value, now.
    destruct (ex_st c (env_time e (w_time w)) v W Hm) as [W1 L1]. eexists. split; [reflexivity|]. auto.
  - cbn [actual documented meets exec_write8]. unfold clock_with_value, now.
    destruct (ex_dt c (env_time e (w_time w)) v W Hm) as [W1 L1]. eexists. split; [reflexivity|]. auto.
  - cbn [exec_inc8]. destruct (has r) eqn:Hr.
    + rewrite (read_gp c r W Hr). cbn [bind].
      destruct (ex_gp c (gp_index r) (wrapping_add_u8 (observe c (PV (gp_index r))) v) W (has_index r Hr) (Hu8 _)) as (gp & E1 & [W1 L1]).
      rewrite E1. cbn [bind]. destruct r; try discriminate; cbn [actual documented meets]; eexists; (split; [reflexivity|]); auto.
    + apply has_not in Hr as ->. rewrite (read_gp_vf c Vf W eq_refl). reflexivity.
  - cbn [actual documented meets exec_inc8]. rewrite (clock_read_eq e p (c8_st c) w (wf_st c W)). cbn [bind].
    unfold clock_with_value, now.
    destruct (ex_st c (env_time e (Datatypes.S (w_time w)))
      (wrapping_add_u8 (clocked (observe c PSound) (observe c PSoundAt) (env_time e (w_time w))) v) W (Hu8 _)) as [W1 L1].
    eexists. split; [reflexivity|]. auto.
  - cbn [actual documented meets exec_inc8]. rewrite (clock_read_eq e p (c8_dt c) w (wf_dt c W)). cbn [bind].
    unfold clock_with_value, now.
    destruct (ex_dt c (env_time e (Datatypes.S (w_time w)))
      (wrapping_add_u8 (clocked (observe c PDelay) (observe c PDelayAt) (env_time e (w_time w))) v) W (Hu8 _)) as [W1 L1].
    eexists. split; [reflexivity|]. auto.
  - cbn [actual meets]. exists c. auto.
  - cbn [actual documented meets exec_write16 register_name]. destruct (ex_i c v W Hm) as [W1 L1]. eexists. split; [reflexivity|]. auto.
  - cbn [actual documented meets exec_write16 register_name]. destruct (ex_pc c v W Hm) as [W1 L1]. eexists. split; [reflexivity|]. auto.
  - cbn [actual documented meets exec_inc16 register_name]. destruct (ex_i c _ W (Hu16 (c8_i c + v))) as [W1 L1]. eexists. split; [reflexivity|]. auto.
  - cbn [actual documented meets exec_inc16 register_name]. destruct (ex_pc c _ W (Hu16 (c8_pc c + v))) as [W1 L1]. eexists. split; [reflexivity|]. auto.
  - cbn [actual meets]. exists c. auto.
  - cbn [actual meets]. destruct (ex_push c v W Hm) as (c' & E1 & [W1 L1] & _). rewrite E1. exists c'. auto.
  - cbn [actual meets]. exists c. auto.
  - cbn [actual documented meets]. eexists. split; [reflexivity|]. split; [destruct W; constructor; cbn; assumption|].
    intros q. destruct q; reflexivity.
  - cbn [actual documented meets]. eexists. split; [reflexivity|]. split; [destruct W; constructor; cbn; assumption|].
    intros q. destruct q; reflexivity.
  - cbn [actual documented meets]. destruct Hm as [Hx Hy].
    destruct (write_pixel_spec (c8_display c) x y v (wf_display c W) Hx Hy) as (d & E1 & D1 & S1). rewrite E1. cbn [bind].
    eexists. split; [reflexivity|]. split; [destruct W; constructor; cbn; assumption|].
    intros q. destruct q; try reflexivity. cbn [observe paint c8_display set_display]. rewrite S1. unfold painted.
    match goal with |- (if (if ?a then _ else _) then _ else _) = (if ?b then _ else _) => assert (Hab : a = b) end.
    { apply Bool.eq_iff_eq_true. rewrite !andb_true_iff. split; intros K.
      - destruct K as [[K1 K2] K3]. assert (x0 = x) as -> by lia. assert (y0 = y) as -> by lia. rewrite K3. split; [reflexivity|lia].
      - destruct K as [K1 [K2 K3]]. assert (x0 = x) as -> by lia. assert (y0 = y) as -> by lia. rewrite K1. split; [lia|reflexivity]. }
    rewrite Hab. match goal with |- context [if ?b then v else _] => destruct b end; reflexivity.
  - cbn [actual]. change (2 ^ 64) with usize_modulus. destruct Hm as (Hx & Hy & Hx' & Hy'). rewrite (range_law p c x y x' y' v W Hx Hy Hx' Hy').
    destruct (match p with Debug => _ | Release => _ end); [|reflexivity]. cbn [bind meets].
    eexists. split; [reflexivity|]. split.
    { destruct W; constructor; cbn; try assumption. eapply shape_display_ok; [apply fill_rows_shape|assumption]. }
    intros q. destruct q; try reflexivity. cbn [observe paint c8_display set_display].
    destruct (wf_display c W) as [L F].
    assert (Hn : 0 <= (64 * (y' - y) + (x' - x) + 1) mod usize_modulus) by (apply Z.mod_pos_bound; reflexivity).
    revert Hn. generalize ((64 * (y' - y) + (x' - x) + 1) mod usize_modulus). intros n Hn.
    rewrite (fill_rows_law v (c8_display c)) by (assumption || lia). rewrite L.
    unfold on_screen, in_reading_order. cbv zeta. cbn [fst snd].
    match goal with |- (if (if ?a then _ else _) then _ else _) = (if ?b then _ else _) => replace b with a by lia; destruct a end; reflexivity.
Qed.
End Exact.
