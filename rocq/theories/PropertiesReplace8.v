(** C109: a piece of a CHIP-8 program can be replaced by one that does the same. *)
From Verif Require Import Base Arith ModelMap ModelStep ModelDisplay ModelChip8 ModelOpsChip8 ModelRunChip8 SpecMap Link6502
  SpecChip8 SpecChip8Parts SpecChip8Run ProofChip8 ProofChip8Step ProofChip8Reach ProofChip8Run SpecReference8 ProofReference8
  SpecLive8 PropertiesLive8 SpecMove8 PropertiesMove8 SpecRoutines8 ProofRoutines8 PropertiesRoutines8 SpecReplace8.

Lemma instructions_0 e p c w : instructions e p 0 c w c w.
Proof. exists []. split; [reflexivity|constructor]. Qed.
Lemma instructions_app e p n c w c1 w1 m c2 w2 : instructions e p n c w c1 w1 -> instructions e p m c1 w1 c2 w2 ->
  instructions e p (n + m) c w c2 w2.
Proof.
  intros (h & <- & X) (h2 & <- & Y). exists (h ++ h2). split; [apply app_length|]. exact (executes_app2 _ _ _ _ _ _ _ X _ _ _ Y).
Qed.
Lemma instructions_fun e p n c w c1 w1 c2 w2 : instructions e p n c w c1 w1 -> instructions e p n c w c2 w2 -> c1 = c2 /\ w1 = w2.
Proof.
  intros (h & <- & X) (h2 & E & Y). revert h2 E Y. induction X as [c w|c w word c1 w1 h c3 w3 F Es X IH]; intros h2 E Y.
  - destruct h2; [|discriminate]. inversion Y; subst. split; reflexivity.
  - destruct h2 as [|aw h2]; [discriminate|]. inversion Y; subst. replace c4 with c1 in * by congruence. replace w4 with w1 in * by congruence.
    apply (IH h2); [cbn in E; congruence|assumption].
Qed.
Lemma instructions_one e p c w op c1 w1 : fetches p c (encode op) -> step e p c w = Ok (c1, w1) -> instructions e p 1 c w c1 w1.
Proof. intros F E. exists [(observe c PPC, encode op)]. split; [reflexivity|]. econstructor; [exact F|exact E|constructor]. Qed.

Lemma differ_after start X Y c c2 c1 c21 : differ_in_piece8 start X Y c c2 -> well_formed c1 -> well_formed c21 ->
  (forall q, in_piece start (length X) q -> observe c1 q = observe c q /\ observe c21 q = observe c2 q) ->
  (forall q, ~ in_piece start (length X) q -> observe c21 q = observe c1 q) ->
  differ_in_piece8 start X Y c1 c21.
Proof.
  intros (W & W2 & Hl & L & L2 & Ag) W1 W21 Hin Hout. split; [exact W1|]. split; [exact W21|]. split; [exact Hl|].
  split; [|split; [|exact Hout]].
  - apply (loaded_same c c1 start X L). intros b Hb. apply Hin. exact Hb.
  - apply (loaded_same c2 c21 start Y L2). intros b Hb. apply Hin. rewrite Hl in Hb. exact Hb.
Qed.

(** An instruction outside the piece. *)
Lemma outside8 e p start X Y c c2 w op c1 w1 : env_ok e -> differ_in_piece8 start X Y c c2 ->
  operands_ok op -> fetches p c (encode op) -> step e p c w = Ok (c1, w1) ->
  (forall q, in_piece start (length X) q -> looks_at8 (observe c) op q = false /\ sets8 (observe c) op q = false) ->
  exists c21, instructions e p 1 c2 w c21 w1 /\ differ_in_piece8 start X Y c1 c21.
Proof.
  intros He D Ho Hf E H. assert (D0 := D). destruct D0 as (W & W2 & Hl & L & L2 & Ag).
  assert (Hd : forall q, {in_piece start (length X) q} + {~ in_piece start (length X) q}).
  { intros q. destruct q; try (right; intros K; exact K). cbn [in_piece].
    destruct (Z_le_dec start a); [destruct (Z_lt_dec a (start + 2 * Z.of_nat (length X)))|]; [left; lia|right; lia|right; lia]. }
  assert (Ag1 : forall q, looks_at8 (observe c) op q = true -> observe c2 q = observe c q).
  { intros q Hq. apply Ag. intros K. destruct (H q K). congruence. }
  pose proof (C87_one_instruction e p c c2 w op He W W2 Ho Hf Ag1) as Z1. rewrite E in Z1.
  destruct (step e p c2 w) as [[c21 w21]|] eqn:E2; [|contradiction]. destruct Z1 as (-> & Y1 & Y2).
  assert (F2 := fetches_known _ _ _ _ _ W Hf Ag1). exists c21. split; [exact (instructions_one _ _ _ _ _ _ _ F2 E2)|].
  apply (differ_after start X Y c c2 c1 c21 D (step_well_formed _ _ _ _ _ _ _ He W Ho Hf E) (step_well_formed _ _ _ _ _ _ _ He W2 Ho F2 E2)).
  - intros q K. apply Y2. apply H, K.
  - intros q K. destruct (sets8 (observe c) op q) eqn:Eq; [apply Y1, Eq|]. destruct (Y2 q Eq) as [A B]. rewrite A, B. apply Ag, K.
Qed.

(** ** C109 *)
(** A run of one machine, with any number of visits to the piece, is followed
    by the other: it takes the number of instructions of its own piece at every
    visit, and in the end differs only in the piece. *)
Theorem C109_replace : forall e p start X Y when kx ky n k c w c' w' c2, env_ok e ->
  interchangeable8 e p start X Y when kx ky -> differ_in_piece8 start X Y c c2 ->
  visits8 e p start (length X) when kx n k c w c' w' ->
  exists c2', instructions e p (n * kx + k) c w c' w' /\ instructions e p (n * ky + k) c2 w c2' w' /\
    differ_in_piece8 start X Y c' c2'.
Proof.
  intros e p start X Y when kx ky n k c w c' w' c2 He HI D V. revert c2 D.
  remember (length X) as size eqn:Hsz.
  induction V as [c w|n k c w c1 w1 c' w' Hp Hw I1 V IH|n k op c w c1 w1 c' w' Ho Hf E H V IH]; intros c2 D.
  - exists c2. split; [apply instructions_0|]. split; [apply instructions_0|exact D].
  - destruct (HI c c2 w D Hp Hw) as (d & d2 & wd & J1 & J2 & D1). destruct (instructions_fun _ _ _ _ _ _ _ _ _ I1 J1) as [<- <-].
    destruct (IH d2 D1) as (c2' & K1 & K2 & D2). exists c2'. cbn [Nat.mul]. rewrite <- !Nat.add_assoc.
    split; [exact (instructions_app _ _ _ _ _ _ _ _ _ _ I1 K1)|]. split; [exact (instructions_app _ _ _ _ _ _ _ _ _ _ J2 K2)|exact D2].
  - rewrite Hsz in H. destruct (outside8 e p start X Y c c2 w op c1 w1 He D Ho Hf E H) as (c21 & J2 & D1).
    destruct (IH c21 D1) as (c2' & K1 & K2 & D2). exists c2'. rewrite !Nat.add_succ_r.
    split; [exact (instructions_app _ _ _ _ _ _ _ _ _ _ (instructions_one _ _ _ _ _ _ _ Hf E) K1)|].
    split; [exact (instructions_app _ _ _ _ _ _ _ _ _ _ J2 K2)|exact D2].
Qed.

(** Every machine has such a counterpart, for all pieces. *)
Lemma encode_word op : operands_ok op -> u16 (encode op).
Proof.
  intros H. assert (R : forall r, 0 <= gp_index r < 16) by (intros []; cbn; lia). unfold u16.
  destruct op; cbn [encode operands_ok] in *; unfold u8 in *;
    repeat match goal with r : gp_register |- _ => pose proof (R r); generalize dependent (gp_index r); clear r; intros end; lia.
Qed.
Lemma put_instructions Y : forall c a, well_formed c -> 0 <= a -> a + 2 * Z.of_nat (length Y) <= 4096 -> Forall operands_ok Y ->
  exists c2, well_formed c2 /\ loaded c2 a Y /\ forall q, ~ in_piece a (length Y) q -> observe c2 q = observe c q.
Proof.
  induction Y as [|op Y IH]; intros c a W Ha Hb HY.
  - exists c. split; [exact W|]. split; [|intros; reflexivity]. split; [exact Ha|]. split; [exact Hb|]. intros [|k] op H; discriminate.
  - cbn [length] in Hb. inversion_clear HY as [|? ? Ho HY']. assert (Ew := encode_word op Ho). unfold u16 in Ew.
    destruct (IH c (a + 2) W ltac:(lia) ltac:(lia) HY') as (c1 & W1 & (_ & _ & L1) & Ag1).
    destruct (ex_mem Debug c1 a (encode op / 256) W1 ltac:(lia) ltac:(unfold u8; lia)) as (c2 & _ & (W2 & L2) & _).
    destruct (ex_mem Debug c2 (a + 1) (encode op mod 256) W2 ltac:(lia) ltac:(unfold u8; lia)) as (c3 & _ & (W3 & L3) & _).
    assert (O : forall q, observe c3 q = if part_eqb (PMem (a + 1)) q then encode op mod 256 else if part_eqb (PMem a) q then encode op / 256 else observe c1 q).
    { intros q. rewrite L3. unfold upd. destruct (part_eqb (PMem (a + 1)) q); [reflexivity|]. rewrite L2. unfold upd. reflexivity. }
    exists c3. split; [exact W3|]. split.
    + split; [exact Ha|]. split; [exact Hb|]. intros [|k] op' Hk.
      * cbn [nth_error] in Hk. injection Hk as <-. rewrite !O. cbn [part_eqb]. replace (a + 1 =? a + 2 * Z.of_nat 0) with false by lia.
        replace (a =? a + 2 * Z.of_nat 0) with true by lia. replace (a + 1 =? a + 2 * Z.of_nat 0 + 1) with true by lia. lia.
      * cbn [nth_error] in Hk. rewrite <- (L1 k op' Hk), !O. cbn [part_eqb].
        replace (a + 1 =? a + 2 * Z.of_nat (S k)) with false by lia. replace (a =? a + 2 * Z.of_nat (S k)) with false by lia.
        replace (a + 1 =? a + 2 * Z.of_nat (S k) + 1) with false by lia. replace (a =? a + 2 * Z.of_nat (S k) + 1) with false by lia.
        replace (a + 2 * Z.of_nat (S k)) with (a + 2 + 2 * Z.of_nat k) by lia. reflexivity.
    + intros q Hq. rewrite O. assert (Q : ~ in_piece (a + 2) (length Y) q).
      { intros K. apply Hq. destruct q; try contradiction. cbn [in_piece length] in *. lia. }
      rewrite (Ag1 q Q). destruct q; try reflexivity. cbn [in_piece length part_eqb] in *.
      replace (a + 1 =? a0) with false by lia. replace (a =? a0) with false by lia. reflexivity.
Qed.
Theorem C109_counterpart : forall c start X Y, well_formed c -> loaded c start X -> length Y = length X -> Forall operands_ok Y ->
  exists c2, differ_in_piece8 start X Y c c2.
Proof.
  intros c start X Y W L Hl HY. assert (La := L). destruct La as (La & Lb & _).
  destruct (put_instructions Y c start W La ltac:(rewrite Hl; exact Lb) HY) as (c2 & W2 & L2 & Ag). rewrite Hl in Ag.
  exists c2. split; [exact W|]. split; [exact W2|]. split; [exact Hl|]. split; [exact L|]. split; [exact L2|exact Ag].
Qed.

(** ** Pieces that do the same *)
(** What an instruction that goes on to the next one and asks nothing sets, and
    to what; PPC for one that sets nothing else. *)
Definition writes (f : part -> Z) (op : opcode) : option (part * Z) :=
  match op with
  | Sys _ => Some (PPC, 0)
  | LdImmediate x kk => Some (PV (gp_index x), kk)
  | AddImmediate x kk => Some (PV (gp_index x), (v f x + kk) mod 256)
  | LdVxVy x y => Some (PV (gp_index x), v f y)
  | Or x y => Some (PV (gp_index x), Z.lor (v f x) (v f y))
  | And x y => Some (PV (gp_index x), Z.land (v f x) (v f y))
  | Xor x y => Some (PV (gp_index x), Z.lxor (v f x) (v f y))
  | LdAbsolute nnn => Some (PI, nnn)
  | AddIRegisterIndexed x => Some (PI, (f PI + v f x) mod 65536)
  | _ => None
  end.
Definition uses (op : opcode) : list gp_register :=
  match op with
  | LdImmediate x _ | AddImmediate x _ | AddIRegisterIndexed x => [x]
  | LdVxVy x y | Or x y | And x y | Xor x y | SeVxVy x y | SneVxVy x y => [x; y]
  | _ => []
  end.

Lemma piece_step e p c w start X k op f w' : env_ok e -> well_formed c -> loaded c start X -> nth_error X k = Some op ->
  observe c PPC = start + 2 * Z.of_nat k -> operands_ok op -> effect e p (observe c) w op = Some (f, w') ->
  exists c1, instructions e p 1 c w c1 w' /\ well_formed c1 /\ forall q, observe c1 q = f q.
Proof.
  intros He W (La & Lb & L) Hk Hpc Ho E. assert (Hlen : (k < length X)%nat) by (apply nth_error_Some; congruence).
  assert (F : fetches p c (encode op)).
  { split; [right; lia|]. rewrite Hpc, (Z.mod_small (_ + 1)) by lia. symmetry. apply L, Hk. }
  pose proof (step_effect e p c w W He op Ho F) as K. rewrite E in K. destruct K as (c1 & Es & W1 & Lk).
  exists c1. split; [exact (instructions_one _ _ _ _ _ _ _ F Es)|]. split; [exact W1|exact Lk].
Qed.

Lemma write_step e p c w start X k op t u : env_ok e -> well_formed c -> loaded c start X -> nth_error X k = Some op ->
  observe c PPC = start + 2 * Z.of_nat k -> operands_ok op -> ~ In Vf (uses op) -> writes (observe c) op = Some (t, u) ->
  exists c1, instructions e p 1 c w c1 w /\ well_formed c1 /\ loaded c1 start X /\
    forall q, observe c1 q = upd (upd (observe c) t u) PPC (start + 2 * Z.of_nat (S k)) q.
Proof.
  intros He W L Hk Hpc Ho Hv Hw. assert (La := L). destruct La as (La & Lb & _).
  assert (Hlen : (k < length X)%nat) by (apply nth_error_Some; congruence).
  assert (Hh : forall r, In r (uses op) -> has r = true) by (intros r Hr; apply has_of; intros ->; exact (Hv Hr)).
  assert (G : exists f, effect e p (observe c) w op = Some (f, w) /\ forall q, f q = upd (upd (observe c) t u) PPC (start + 2 * Z.of_nat (S k)) q).
  { assert (Pn : (observe c PPC + 2) mod 65536 = start + 2 * Z.of_nat (S k)) by (rewrite Hpc; lia).
    rewrite <- Pn. destruct op; try discriminate; cbn [uses In] in Hh; cbn [effect]; unfold needs, done;
      repeat match goal with r : gp_register |- context [has ?r'] => rewrite (Hh r') by auto end; cbn [andb writes] in *; injection Hw as <- <-;
      (eexists; split; [reflexivity|]); intros q; unfold advance, upd; destruct q; reflexivity. }
  destruct G as (f & E & Hf). destruct (piece_step e p c w start X k op f w He W L Hk Hpc Ho E) as (c1 & I1 & W1 & O1).
  assert (O : forall q, observe c1 q = upd (upd (observe c) t u) PPC (start + 2 * Z.of_nat (S k)) q) by (intros q; rewrite O1; apply Hf).
  exists c1. split; [exact I1|]. split; [exact W1|]. split; [|exact O]. apply (loaded_same c c1 start X L). intros b _. rewrite O.
  destruct op; try discriminate; cbn [writes] in Hw; injection Hw as <- <-; reflexivity.
Qed.

(** Both pieces set the same register to the same value. *)
Lemma same_result start X Y c c2 c' c2' t u pc : differ_in_piece8 start X Y c c2 -> well_formed c' -> well_formed c2' ->
  (match t with PMem _ => False | _ => True end) ->
  (forall q, observe c' q = upd (upd (observe c) t u) PPC pc q) -> (forall q, observe c2' q = upd (upd (observe c2) t u) PPC pc q) ->
  differ_in_piece8 start X Y c' c2'.
Proof.
  intros D W W2 Ht O O2. apply (differ_after start X Y c c2 c' c2' D W W2).
  - intros q Hq. rewrite O, O2. destruct q; try contradiction. unfold upd. destruct t; try contradiction; cbn [part_eqb]; split; reflexivity.
  - intros q Hq. rewrite O, O2. destruct D as (_ & _ & _ & _ & _ & Ag). unfold upd. rewrite (Ag q Hq). reflexivity.
Qed.

Section Pieces.
Context (e : environment) (p : profile) (He : env_ok e) (start : Z).

(** Two instructions one after the other. *)
Lemma write_two c w op1 op2 t1 u1 t2 u2 : well_formed c -> loaded c start [op1; op2] -> observe c PPC = start ->
  operands_ok op1 -> operands_ok op2 -> ~ In Vf (uses op1) -> ~ In Vf (uses op2) ->
  writes (observe c) op1 = Some (t1, u1) ->
  (forall f, (forall q, f q = upd (upd (observe c) t1 u1) PPC (start + 2) q) -> writes f op2 = Some (t2, u2)) ->
  exists c', instructions e p 2 c w c' w /\ well_formed c' /\
    forall q, observe c' q = upd (upd (upd (observe c) t1 u1) t2 u2) PPC (start + 4) q.
Proof using He.
  intros W L Hp O1 O2 V1 V2 W1 W2.
  destruct (write_step e p c w start [op1; op2] 0 op1 t1 u1 He W L eq_refl ltac:(rewrite Hp; lia) O1 V1 W1) as (c1 & I1 & Wf1 & L1 & X1).
  assert (P1 : observe c1 PPC = start + 2 * Z.of_nat 1) by (rewrite X1; reflexivity).
  destruct (write_step e p c1 w start [op1; op2] 1 op2 t2 u2 He Wf1 L1 eq_refl P1 O2 V2 (W2 _ X1)) as (c' & I2 & Wf2 & _ & X2).
  exists c'. split; [exact (instructions_app _ _ _ _ _ _ _ _ _ _ I1 I2)|]. split; [exact Wf2|].
  intros q. rewrite X2. unfold upd. destruct (part_eqb PPC q) eqn:E; [reflexivity|]. destruct (part_eqb t2 q); [reflexivity|].
  rewrite X1. unfold upd. rewrite E. reflexivity.
Qed.

Local Ltac operands := cbn [operands_ok]; unfold u8 in *; try exact I; try lia.
Local Ltac no_vf := cbn [uses In]; intuition congruence.

(** Loading a constant and adding another is loading their sum. *)
Theorem C109_load_add : forall x k n z, x <> Vf -> u8 k -> u8 n -> operands_ok (Sys z) ->
  interchangeable8 e p start [LdImmediate x k; AddImmediate x n] [LdImmediate x ((k + n) mod 256); Sys z] (fun _ => True) 2 2.
Proof using He.
  intros x k n z Hx Hk Hn Hz c c2 w D Hp _. assert (D0 := D). destruct D0 as (W & W2 & _ & L & L2 & Ag).
  assert (Hp2 : observe c2 PPC = start) by (rewrite (Ag PPC) by (intros []); exact Hp).
  destruct (write_two c w (LdImmediate x k) (AddImmediate x n) (PV (gp_index x)) k (PV (gp_index x)) ((k + n) mod 256) W L Hp
    ltac:(operands) ltac:(operands) ltac:(no_vf) ltac:(no_vf) eq_refl) as (c' & I1 & W1 & O1).
  { intros f Hf. cbn [writes]. unfold v. rewrite Hf. obs. reflexivity. }
  destruct (write_two c2 w (LdImmediate x ((k + n) mod 256)) (Sys z) (PV (gp_index x)) ((k + n) mod 256) PPC 0 W2 L2 Hp2
    ltac:(operands) Hz ltac:(no_vf) ltac:(no_vf) eq_refl ltac:(intros; reflexivity)) as (c2' & I2 & W12 & O2).
  exists c', c2', w. split; [exact I1|]. split; [exact I2|].
  apply (same_result start _ _ c c2 c' c2' (PV (gp_index x)) ((k + n) mod 256) (start + 4) D W1 W12 I).
  - intros q. rewrite O1. unfold upd. destruct (part_eqb (PV (gp_index x)) q); reflexivity.
  - intros q. rewrite O2. unfold upd. destruct (part_eqb PPC q); reflexivity.
Qed.

(** Copying a register back is superfluous. *)
Theorem C109_there_and_back : forall x y z, x <> Vf -> y <> Vf -> operands_ok (Sys z) ->
  interchangeable8 e p start [LdVxVy x y; LdVxVy y x] [LdVxVy x y; Sys z] (fun _ => True) 2 2.
Proof using He.
  intros x y z Hx Hy Hz c c2 w D Hp _. assert (D0 := D). destruct D0 as (W & W2 & _ & L & L2 & Ag).
  assert (Hp2 : observe c2 PPC = start) by (rewrite (Ag PPC) by (intros []); exact Hp).
  destruct (write_two c w (LdVxVy x y) (LdVxVy y x) (PV (gp_index x)) (v (observe c) y) (PV (gp_index y)) (v (observe c) y) W L Hp
    I I ltac:(no_vf) ltac:(no_vf) eq_refl) as (c' & I1 & W1 & O1).
  { intros f Hf. cbn [writes]. unfold v at 1. rewrite Hf. obs. reflexivity. }
  destruct (write_two c2 w (LdVxVy x y) (Sys z) (PV (gp_index x)) (v (observe c2) y) PPC 0 W2 L2 Hp2
    I Hz ltac:(no_vf) ltac:(no_vf) eq_refl ltac:(intros; reflexivity)) as (c2' & I2 & W12 & O2).
  exists c', c2', w. split; [exact I1|]. split; [exact I2|].
  apply (same_result start _ _ c c2 c' c2' (PV (gp_index x)) (v (observe c) y) (start + 4) D W1 W12 I).
  - intros q. rewrite O1. unfold upd. destruct (part_eqb (PV (gp_index y)) q) eqn:E; [|reflexivity].
    apply part_eqb_true in E. subst q. cbn [part_eqb]. destruct (gp_index x =? gp_index y); reflexivity.
  - intros q. rewrite O2. unfold v. rewrite (Ag (PV (gp_index y))) by (intros []). unfold upd. destruct (part_eqb PPC q); reflexivity.
Qed.

(** Two exclusive ors with the same other register cancel. *)
Theorem C109_xor_twice : forall x y z z2, x <> y -> x <> Vf -> y <> Vf -> operands_ok (Sys z) -> operands_ok (Sys z2) ->
  interchangeable8 e p start [Xor x y; Xor x y] [Sys z; Sys z2] (fun _ => True) 2 2.
Proof using He.
  intros x y z z2 Hxy Hx Hy Hz Hz2 c c2 w D Hp _. assert (D0 := D). destruct D0 as (W & W2 & _ & L & L2 & Ag).
  assert (Hp2 : observe c2 PPC = start) by (rewrite (Ag PPC) by (intros []); exact Hp).
  assert (Ixy : gp_index x <> gp_index y) by (intros E; apply Hxy, index_inj, E).
  destruct (write_two c w (Xor x y) (Xor x y) (PV (gp_index x)) (Z.lxor (v (observe c) x) (v (observe c) y)) (PV (gp_index x)) (v (observe c) x) W L Hp
    I I ltac:(no_vf) ltac:(no_vf) eq_refl) as (c' & I1 & W1 & O1).
  { intros f Hf. cbn [writes]. unfold v at 1 2. rewrite !Hf. obs. rewrite Z.lxor_assoc, Z.lxor_nilpotent, Z.lxor_0_r. reflexivity. }
  destruct (write_two c2 w (Sys z) (Sys z2) PPC 0 PPC 0 W2 L2 Hp2
    Hz Hz2 ltac:(no_vf) ltac:(no_vf) eq_refl ltac:(intros; reflexivity)) as (c2' & I2 & W12 & O2).
  exists c', c2', w. split; [exact I1|]. split; [exact I2|].
  apply (same_result start _ _ c c2 c' c2' PPC 0 (start + 4) D W1 W12 I).
  - intros q. rewrite O1. unfold upd. destruct (part_eqb PPC q); [reflexivity|].
    destruct (part_eqb (PV (gp_index x)) q) eqn:E; [|reflexivity]. apply part_eqb_true in E. subst q. reflexivity.
  - intros q. rewrite O2. unfold upd. destruct (part_eqb PPC q); reflexivity.
Qed.

(** Adding a register with a known value to an address. *)
Theorem C109_index : forall x nnn n z, x <> Vf -> 0 <= nnn -> u8 n -> nnn + n < 4096 -> operands_ok (Sys z) ->
  interchangeable8 e p start [LdAbsolute nnn; AddIRegisterIndexed x] [LdAbsolute (nnn + n); Sys z] (fun c => reg c x = n) 2 2.
Proof using He.
  intros x nnn n z Hx Hn Hb Hs Hz c c2 w D Hp Hr. assert (D0 := D). destruct D0 as (W & W2 & _ & L & L2 & Ag).
  assert (Hp2 : observe c2 PPC = start) by (rewrite (Ag PPC) by (intros []); exact Hp).
  destruct (write_two c w (LdAbsolute nnn) (AddIRegisterIndexed x) PI nnn PI (nnn + n) W L Hp
    ltac:(operands) I ltac:(no_vf) ltac:(no_vf) eq_refl) as (c' & I1 & W1 & O1).
  { intros f Hf. cbn [writes]. unfold v. rewrite !Hf. obs. fold (reg c x). rewrite Hr. unfold u8 in Hb. rewrite Z.mod_small by lia. reflexivity. }
  destruct (write_two c2 w (LdAbsolute (nnn + n)) (Sys z) PI (nnn + n) PPC 0 W2 L2 Hp2
    ltac:(operands) Hz ltac:(no_vf) ltac:(no_vf) eq_refl ltac:(intros; reflexivity)) as (c2' & I2 & W12 & O2).
  exists c', c2', w. split; [exact I1|]. split; [exact I2|].
  apply (same_result start _ _ c c2 c' c2' PI (nnn + n) (start + 4) D W1 W12 I).
  - intros q. rewrite O1. unfold upd. destruct (part_eqb PI q); reflexivity.
  - intros q. rewrite O2. unfold upd. destruct (part_eqb PPC q); reflexivity.
Qed.

(** One instruction for another. *)
Lemma one_for_one op op2 (when : chip8 -> Prop) : operands_ok op -> operands_ok op2 ->
  (forall c w, well_formed c -> when c -> loaded c start [op] -> observe c PPC = start -> exists t u pc, match t with PMem _ => False | _ => True end /\
    (exists f, effect e p (observe c) w op = Some (f, w) /\ forall q, f q = upd (upd (observe c) t u) PPC pc q) /\
    forall g, (forall q, (match q with PMem _ => False | _ => True end) -> g q = observe c q) ->
      exists f, effect e p g w op2 = Some (f, w) /\ forall q, f q = upd (upd g t u) PPC pc q) ->
  interchangeable8 e p start [op] [op2] when 1 1.
Proof using He.
  intros Ho Ho2 H c c2 w D Hp Hw. assert (D0 := D). destruct D0 as (W & W2 & _ & L & L2 & Ag).
  assert (Hp2 : observe c2 PPC = start) by (rewrite (Ag PPC) by (intros []); exact Hp).
  destruct (H c w W Hw L Hp) as (t & u & pc & Ht & (f & E & Hf) & G).
  destruct (G (observe c2)) as (f2 & E2 & Hf2). { intros q Hq. apply Ag. destruct q; try exact (fun K => K). contradiction. }
  destruct (piece_step e p c w start [op] 0 op f w He W L eq_refl ltac:(rewrite Hp; lia) Ho E) as (c' & I1 & W1 & O1).
  destruct (piece_step e p c2 w start [op2] 0 op2 f2 w He W2 L2 eq_refl ltac:(rewrite Hp2; lia) Ho2 E2) as (c2' & I2 & W12 & O2).
  exists c', c2', w. split; [exact I1|]. split; [exact I2|].
  apply (same_result start [op] [op2] c c2 c' c2' t u pc D W1 W12 Ht); intros q; [rewrite O1; apply Hf|rewrite O2; apply Hf2].
Qed.

Lemma start_small c op : loaded c start [op] -> 0 <= start /\ start + 2 <= 4096.
Proof using. intros (H & H2 & _). cbn [length] in H2. lia. Qed.

(** The exclusive or of a register with itself is zero. *)
Theorem C109_clear : forall x, x <> Vf ->
  interchangeable8 e p start [Xor x x] [LdImmediate x 0] (fun _ => True) 1 1.
Proof using He.
  intros x Hx. apply one_for_one; [exact I|cbn; unfold u8; lia|]. intros c w W _ L Hp. destruct (start_small c _ L) as [S1 S2].
  exists (PV (gp_index x)), 0, (start + 2). split; [exact I|]. pose proof (has_of x Hx) as Kx. split.
  - cbn [effect]. unfold needs, done. rewrite Kx. cbn [andb]. eexists. split; [reflexivity|]. intros q. rewrite Z.lxor_nilpotent.
    unfold advance, upd. rewrite Hp, (Z.mod_small (start + 2)) by lia. destruct q; reflexivity.
  - intros g Hg. cbn [effect]. unfold needs, done. rewrite Kx. eexists. split; [reflexivity|]. intros q.
    unfold advance, upd. rewrite (Hg PPC I), Hp, (Z.mod_small (start + 2)) by lia. destruct q; reflexivity.
Qed.

(** Instructions that leave everything as it is. *)
Definition leaves_all (x : gp_register) : list opcode := [LdVxVy x x; Or x x; And x x; AddImmediate x 0; SneVxVy x x].
Theorem C109_nothing : forall x op z, x <> Vf -> In op (leaves_all x) -> operands_ok (Sys z) ->
  interchangeable8 e p start [op] [Sys z] (fun _ => True) 1 1.
Proof using He.
  intros x op z Hx Hin Hz. apply one_for_one; [|exact Hz|].
  { destruct Hin as [<-|[<-|[<-|[<-|[<-|[]]]]]]; cbn; unfold u8; try exact I; lia. }
  intros c w W _ L Hp. destruct (start_small c _ L) as [S1 S2]. pose proof (has_of x Hx) as Kx. assert (B := v_byte c x W Hx).
  exists PPC, 0, (start + 2). split; [exact I|]. split.
  - assert (G : forall f, f = (fun q => upd (advance (observe c) 2) (PV (gp_index x)) (v (observe c) x) q) \/ f = advance (observe c) 2 ->
      forall q, f q = upd (upd (observe c) PPC 0) PPC (start + 2) q).
    { intros f Hf q. assert (E : (start + 2) mod 65536 = start + 2) by (apply Z.mod_small; lia).
      destruct Hf as [-> | ->]; unfold advance, upd; rewrite Hp, E; [|destruct (part_eqb PPC q); reflexivity].
      destruct (part_eqb (PV (gp_index x)) q) eqn:Q; [apply part_eqb_true in Q; subst q; reflexivity|]. destruct (part_eqb PPC q); reflexivity. }
    destruct Hin as [<-|[<-|[<-|[<-|[<-|[]]]]]]; cbn [effect]; unfold needs, done; rewrite Kx; cbn [andb]; (eexists; split; [reflexivity|]); apply G;
      [left; reflexivity| | | |right; rewrite Z.eqb_refl; reflexivity].
    + left. rewrite Z.lor_diag. reflexivity.
    + left. rewrite Z.land_diag. reflexivity.
    + left. unfold reg, u8 in B. unfold v. rewrite Z.add_0_r, Z.mod_small by exact B. reflexivity.
  - intros g Hg. exists (advance g 2). split; [reflexivity|]. intros q. unfold advance, upd. rewrite (Hg PPC I), Hp, (Z.mod_small (start + 2)) by lia.
    destruct (part_eqb PPC q); reflexivity.
Qed.

(** Skipping if a register is equal to itself is a jump over one instruction. *)
Theorem C109_skip : forall x, x <> Vf -> 0 <= start -> start + 4 < 4096 ->
  interchangeable8 e p start [SeVxVy x x] [JpNonV0Indexed (start + 4)] (fun _ => True) 1 1.
Proof using He.
  intros x Hx Hs Hs4. apply one_for_one; [exact I|cbn; lia|]. intros c w W _ L Hp. pose proof (has_of x Hx) as Kx.
  exists PPC, 0, (start + 4). split; [exact I|]. split.
  - cbn [effect]. unfold needs, done. rewrite Kx, Z.eqb_refl. cbn [andb]. eexists. split; [reflexivity|]. intros q.
    unfold advance, upd. rewrite Hp, (Z.mod_small (start + 4)) by lia. destruct (part_eqb PPC q); reflexivity.
  - intros g Hg. cbn [effect]. unfold done. eexists. split; [reflexivity|]. intros q. unfold upd. destruct (part_eqb PPC q); reflexivity.
Qed.

(** A jump to a jump is a jump to its target, one instruction shorter. *)
Theorem C109_jump : forall a b, 0 <= b < 4096 ->
  interchangeable8 e p start [JpNonV0Indexed a] [JpNonV0Indexed b] (fun c => loaded c a [JpNonV0Indexed b]) 2 1.
Proof using He.
  intros a b Hb c c2 w D Hp Hw. assert (Ha := Hw). destruct Ha as (Ha & Ha2 & _). cbn [length] in Ha2. assert (D0 := D). destruct D0 as (W & W2 & _ & L & L2 & Ag).
  assert (Hp2 : observe c2 PPC = start) by (rewrite (Ag PPC) by (intros []); exact Hp).
  destruct (piece_step e p c w start [JpNonV0Indexed a] 0 (JpNonV0Indexed a) _ w He W L eq_refl ltac:(rewrite Hp; lia) ltac:(cbn; lia) eq_refl)
    as (c1 & I1 & W1 & O1).
  assert (L1 : loaded c1 a [JpNonV0Indexed b]) by (apply (loaded_same c c1 a _ Hw); intros q _; rewrite O1; reflexivity).
  destruct (piece_step e p c1 w a [JpNonV0Indexed b] 0 (JpNonV0Indexed b) _ w He W1 L1 eq_refl ltac:(rewrite O1; cbn; lia) ltac:(cbn; lia) eq_refl)
    as (c' & I1' & W' & O').
  destruct (piece_step e p c2 w start [JpNonV0Indexed b] 0 (JpNonV0Indexed b) _ w He W2 L2 eq_refl ltac:(rewrite Hp2; lia) ltac:(cbn; lia) eq_refl)
    as (c2' & I2 & W12 & O2).
  exists c', c2', w. split; [exact (instructions_app _ _ _ _ _ _ _ _ _ _ I1 I1')|]. split; [exact I2|].
  apply (same_result start _ _ c c2 c' c2' PPC 0 b D W' W12 I).
  - intros q. rewrite O'. unfold upd. destruct (part_eqb PPC q) eqn:E; [reflexivity|]. rewrite O1. unfold upd. rewrite E. reflexivity.
  - intros q. rewrite O2. unfold upd. destruct (part_eqb PPC q); reflexivity.
Qed.
End Pieces.

(** ** A case
    LD V0, 3 / ADD V0, 4 (or LD V0, 7 / SYS) and ADD V1, 1 / JP 200, one and a
    half times around. *)
Definition piece_x : list opcode := [LdImmediate V0 3; AddImmediate V0 4].
Definition piece_y : list opcode := [LdImmediate V0 7; Sys 0x123].
Definition looping : list opcode := piece_x ++ [AddImmediate V1 1; JpNonV0Indexed 0x200].

(** Once around, or through the piece only. *)
Lemma looping_piece c w : well_formed c -> loaded c 0x200 looping -> observe c PPC = 0x200 ->
  exists c2, instructions env0 Debug 2 c w c2 w /\ well_formed c2 /\ loaded c2 0x200 looping /\ observe c2 PPC = 0x204 /\
    observe c2 (PV 0) = 7 /\ observe c2 (PV 1) = observe c (PV 1).
Proof.
  intros W L Hp.
  destruct (write_step env0 Debug c w 0x200 looping 0 (LdImmediate V0 3) _ _ env0_ok W L eq_refl Hp ltac:(cbn; unfold u8; lia) ltac:(cbn; intuition discriminate) eq_refl)
    as (c1 & I1 & W1 & L1 & O1).
  destruct (write_step env0 Debug c1 w 0x200 looping 1 (AddImmediate V0 4) _ _ env0_ok W1 L1 eq_refl (O1 PPC) ltac:(cbn; unfold u8; lia) ltac:(cbn; intuition discriminate) eq_refl)
    as (c2 & I2 & W2 & L2 & O2).
  exists c2. split; [exact (instructions_app _ _ _ _ _ _ _ _ _ _ I1 I2)|]. split; [exact W2|]. split; [exact L2|].
  split; [exact (O2 PPC)|]. split.
  - rewrite (O2 (PV 0)). unfold v. rewrite O1. reflexivity.
  - rewrite (O2 (PV 1)). transitivity (observe c1 (PV 1)); [reflexivity|]. rewrite (O1 (PV 1)). reflexivity.
Qed.

Lemma looping_visits c w : well_formed c -> loaded c 0x200 looping -> observe c PPC = 0x200 -> observe c (PV 1) = 0 ->
  exists c', visits8 env0 Debug 0x200 2 (fun _ => True) 2 2 2 c w c' w /\ observe c' (PV 0) = 7 /\ observe c' (PV 1) = 1 /\ observe c' PPC = 0x204.
Proof.
  intros W L Hp V1_0.
  destruct (looping_piece c w W L Hp) as (c2 & I2 & W2 & L2 & P2 & _ & A2).
  destruct (write_step env0 Debug c2 w 0x200 looping 2 (AddImmediate V1 1) _ _ env0_ok W2 L2 eq_refl P2 ltac:(cbn; unfold u8; lia) ltac:(cbn; intuition discriminate) eq_refl)
    as (c3 & (h3 & Hl3 & X3) & W3 & L3 & O3).
  assert (P3 : observe c3 PPC = 0x206) by exact (O3 PPC).
  destruct (piece_step env0 Debug c3 w 0x200 looping 3 (JpNonV0Indexed 0x200) _ w env0_ok W3 L3 eq_refl P3 ltac:(cbn; lia) eq_refl) as (c4 & (h4 & Hl4 & X4) & W4 & O4).
  assert (L4 : loaded c4 0x200 looping) by (apply (loaded_same c3 c4 _ _ L3); intros b _; rewrite O4; reflexivity).
  destruct (looping_piece c4 w W4 L4 ltac:(rewrite O4; reflexivity)) as (c6 & I6 & W6 & L6 & P6 & B6 & A6).
  assert (G : forall d op k pc, observe d PPC = pc -> pc = 0x200 + 2 * Z.of_nat k -> loaded d 0x200 looping -> nth_error looping k = Some op -> fetches Debug d (encode op)).
  { clear. intros d op k pc Hd -> (_ & _ & L) Hk. assert (Hlen : (k < length looping)%nat) by (apply nth_error_Some; congruence). cbn [length looping piece_x app] in Hlen.
    split; [right; lia|]. rewrite Hd, (Z.mod_small (_ + 1)) by lia. symmetry. exact (L k op Hk). }
  assert (N : forall d op pc, observe d PPC = pc -> (op = AddImmediate V1 1 /\ pc = 0x204 \/ op = JpNonV0Indexed 0x200 /\ pc = 0x206) -> forall q, in_piece 0x200 2 q ->
    looks_at8 (observe d) op q = false /\ sets8 (observe d) op q = false).
  { clear. intros d op pc Hd Hn q Hq. destruct q; try contradiction. cbn [in_piece] in Hq.
    unfold looks_at8, own_bytes. rewrite Hd. destruct Hn as [[-> ->]|[-> ->]]; cbn [beyond sets8 is_reg part_eqb orb]; split; try reflexivity; lia. }
  exists c6. split; [|split; [exact B6|split; [|exact P6]]].
  - eapply visits8_piece; [exact Hp|exact I|exact I2|].
    destruct h3 as [|a3 [|? ?]]; try discriminate. inversion X3; subst. match goal with K : executes _ _ _ _ [] _ _ |- _ => inversion K; subst; clear K end.
    eapply visits8_outside with (op := AddImmediate V1 1); [cbn; unfold u8; lia|exact (G c2 _ 2%nat 0x204 P2 eq_refl L2 eq_refl)|eassumption|exact (N c2 _ 0x204 P2 (or_introl (conj eq_refl eq_refl)))|].
    destruct h4 as [|a4 [|? ?]]; try discriminate. inversion X4; subst. match goal with K : executes _ _ _ _ [] _ _ |- _ => inversion K; subst; clear K end.
    eapply visits8_outside with (op := JpNonV0Indexed 0x200); [cbn; lia|exact (G c3 _ 3%nat 0x206 P3 eq_refl L3 eq_refl)|eassumption|exact (N c3 _ 0x206 P3 (or_intror (conj eq_refl eq_refl)))|].
    eapply visits8_piece; [rewrite O4; reflexivity|exact I|exact I6|apply visits8_none].
  - rewrite A6, (O4 (PV 1)). transitivity (observe c3 (PV 1)); [reflexivity|]. rewrite (O3 (PV 1)). unfold v, upd. cbn [part_eqb gp_index]. change (1 =? 1) with true.
    rewrite A2, V1_0. reflexivity.
Qed.

Definition looping_demo : chip8 := demo [0x60; 0x03; 0x70; 0x04; 0x71; 0x01; 0x12; 0x00] [] 0 None.
Lemma looping_loaded : well_formed looping_demo /\ loaded looping_demo 0x200 looping /\ observe looping_demo PPC = 0x200 /\ observe looping_demo (PV 1) = 0.
Proof.
  split; [apply demo_wf; vm_compute; reflexivity|]. split; [apply loaded_check; [lia|cbn; lia|vm_compute; reflexivity]|]. split; vm_compute; reflexivity.
Qed.

Example C109_case : exists c2 c2' mcs w', differ_in_piece8 0x200 piece_x piece_y looping_demo c2 /\
  iterate env0 Debug 6 c2 w0 = Ok (mcs, c2', w') /\ observe c2' (PV 0) = 7 /\ observe c2' (PV 1) = 1 /\ observe c2' PPC = 0x204.
Proof.
  pose proof looping_loaded as X. revert X. generalize looping_demo. intros c (W & L & Hp & V1_0).
  destruct (looping_visits c w0 W L Hp V1_0) as (c6 & V & Q).
  assert (OY : Forall operands_ok piece_y) by (repeat constructor; cbn; unfold u8; lia).
  assert (LX : loaded c 0x200 piece_x).
  { destruct L as (_ & _ & L). split; [lia|]. split; [cbn; lia|]. intros k op Hk. apply L. unfold looping. rewrite nth_error_app1; [exact Hk|].
    apply nth_error_Some. congruence. }
  destruct (C109_counterpart _ 0x200 piece_x piece_y W LX eq_refl OY) as (c2 & D).
  pose proof (C109_load_add env0 Debug env0_ok 0x200 V0 3 4 0x123 ltac:(discriminate) ltac:(unfold u8; lia) ltac:(unfold u8; lia) ltac:(cbn; lia)) as HI.
  change ((3 + 4) mod 256) with 7 in HI. fold piece_x piece_y in HI.
  destruct (C109_replace env0 Debug 0x200 piece_x piece_y (fun _ => True) 2 2 2 2 c w0 c6 w0 c2 env0_ok HI D V) as (c2' & _ & (h & Hl & X) & D').
  destruct (executes_iterate _ _ _ _ _ _ _ X) as (mcs & E). rewrite Hl in E.
  exists c2, c2', mcs, w0. split; [exact D|]. split; [exact E|]. destruct D' as (_ & _ & _ & _ & _ & Ag).
  rewrite !Ag by (intros []). exact Q.
Qed.

Print Assumptions C109_replace.
Print Assumptions C109_counterpart.
Print Assumptions C109_load_add.
Print Assumptions C109_there_and_back.
Print Assumptions C109_xor_twice.
Print Assumptions C109_index.
Print Assumptions C109_clear.
Print Assumptions C109_nothing.
Print Assumptions C109_skip.
Print Assumptions C109_jump.
