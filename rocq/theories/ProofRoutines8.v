(** Executions of the programs of SpecRoutines8.v. *)
From Verif Require Import Base Arith ModelMap ModelStep ModelDisplay ModelChip8 ModelOpsChip8 ModelRunChip8.
From Verif Require Import SpecMap Link6502 SpecChip8 SpecChip8Parts SpecChip8Run ProofDecode8 ProofChip8 ProofChip8Step
  ProofChip8Reach ProofChip8Run SpecRoutines8.

Section Exec.
Context (e : environment) (p : profile) (He : env_ok e).

(** [n] instructions that set no timer. *)
Definition reach (c : chip8) (w : world) (n : nat) (c' : chip8) (w' : world) : Prop :=
  well_formed c' /\ exists h, executes e p c w h c' w' /\ length h = n /\ Forall (fun aw => sets_timer (snd aw) = false) h.

Lemma reach_0 c w : well_formed c -> reach c w 0 c w.
Proof. intros W. split; [exact W|]. exists []. repeat split; constructor. Qed.

Lemma executes_app c w h c1 w1 : executes e p c w h c1 w1 -> forall h2 c2 w2, executes e p c1 w1 h2 c2 w2 ->
  executes e p c w (h ++ h2) c2 w2.
Proof.
  induction 1 as [c w|c w word c1 w1 h c2 w2 F E X IH]; intros h2 c3 w3 Y; [exact Y|].
  cbn [app]. eapply executes_cons; [exact F|exact E|]. apply IH, Y.
Qed.

Lemma reach_trans c w n c1 w1 m c2 w2 : reach c w n c1 w1 -> reach c1 w1 m c2 w2 -> reach c w (n + m) c2 w2.
Proof.
  intros (_ & h & X & L & F) (W2 & h2 & Y & L2 & F2). split; [exact W2|]. exists (h ++ h2).
  split; [exact (executes_app _ _ _ _ _ X _ _ _ Y)|]. split; [rewrite app_length; lia|]. apply Forall_app. split; assumption.
Qed.

Definition no_timer (op : opcode) : Prop :=
  match op with LdDelayTimerDestTx _ | LdSoundTimerDestTx _ => False | _ => True end.
Lemma no_timer_word op : operands_ok op -> no_timer op -> sets_timer (encode op) = false.
Proof.
  intros H N. unfold sets_timer. assert (R : forall r, 0 <= gp_index r < 16) by (intros []; cbn; lia).
  destruct op; cbn [encode operands_ok no_timer] in *; try contradiction; unfold u8 in *;
    repeat match goal with r : gp_register |- _ => pose proof (R r); generalize dependent (gp_index r); clear r; intros end;
    rewrite ?Bool.andb_false_iff, ?Bool.orb_false_iff, ?Z.eqb_neq; lia.
Qed.

(** One instruction of a loaded program. *)
Lemma reach_op c w a ops k op f w' : well_formed c -> loaded c a ops -> nth_error ops k = Some op ->
  observe c PPC = a + 2 * Z.of_nat k -> operands_ok op -> no_timer op ->
  effect e p (observe c) w op = Some (f, w') ->
  exists c', reach c w 1 c' w' /\ forall q, observe c' q = f q.
Proof.
  intros W (La & Lb & L) Hk Hpc Hop Hn E.
  assert (Hlen : (k < length ops)%nat) by (apply nth_error_Some; congruence).
  assert (F : fetches p c (encode op)).
  { split; [right; lia|]. rewrite Hpc. rewrite (Z.mod_small (_ + 1)) by lia. symmetry. apply L, Hk. }
  assert (X := step_effect e p c w W He op Hop F). rewrite E in X.
  destruct X as (c' & Es & W' & Lk). exists c'. split; [|exact Lk]. split; [exact W'|].
  exists [(observe c PPC, encode op)]. split; [eapply executes_cons; [exact F|exact Es|constructor]|].
  split; [reflexivity|]. constructor; [exact (no_timer_word op Hop Hn)|constructor].
Qed.

(** A program stays loaded while its bytes stay the same. *)
Lemma loaded_same c c' a ops : loaded c a ops ->
  (forall b, a <= b < a + 2 * Z.of_nat (length ops) -> observe c' (PMem b) = observe c (PMem b)) -> loaded c' a ops.
Proof.
  intros (La & Lb & L) H. split; [exact La|]. split; [exact Lb|]. intros k op Hk.
  assert (Hlen : (k < length ops)%nat) by (apply nth_error_Some; congruence).
  rewrite !H by lia. apply L, Hk.
Qed.
End Exec.

Lemma has_of r : r <> Vf -> has r = true.
Proof. destruct r; intros H; try reflexivity. congruence. Qed.
Lemma index_inj x y : gp_index x = gp_index y -> x = y.
Proof. destruct x, y; cbn; intros H; try reflexivity; discriminate. Qed.
Lemma v_byte c r : well_formed c -> r <> Vf -> u8 (reg c r).
Proof. intros W H. apply observe_v_u8; [exact W|]. apply has_index, has_of, H. Qed.

(** Simplify observations of updated machines. *)
Ltac obs := unfold reg, v, advance, upd; cbn [part_eqb];
  repeat match goal with
  | |- context [?a =? ?a] => rewrite (Z.eqb_refl a)
  | H : ?a <> ?b |- context [?a =? ?b] => rewrite (proj2 (Z.eqb_neq a b) H)
  | H : ?b <> ?a |- context [?a =? ?b] => rewrite (proj2 (Z.eqb_neq a b) (not_eq_sym H))
  end.

Section AddLoop.
Context (e : environment) (p : profile) (He : env_ok e).
Context (x y z : gp_register) (kk a : Z) (Hx : x <> Vf) (Hy : y <> Vf) (Hz : z <> Vf)
  (Hxy : x <> y) (Hxz : x <> z) (Hyz : y <> z) (Hk : u8 kk).
Let P := add_loop x y z kk a.

Lemma add_round c w : well_formed c -> loaded c a P -> observe c PPC = a ->
  let b := (reg c y + 1) mod 256 =? reg c z in
  exists c', reach e p c w (if b then 3 else 4) c' w /\ forall q, observe c' q =
    upd (upd (upd (observe c) (PV (gp_index x)) ((reg c x + kk) mod 256)) (PV (gp_index y)) ((reg c y + 1) mod 256))
        PPC (if b then a + 8 else a) q.
Proof.
  intros W L Hpc b. pose proof (has_of x Hx) as Kx. pose proof (has_of y Hy) as Ky. pose proof (has_of z Hz) as Kz.
  assert (Ixy : gp_index x <> gp_index y) by (intros E; apply Hxy, index_inj, E).
  assert (Ixz : gp_index x <> gp_index z) by (intros E; apply Hxz, index_inj, E).
  assert (Iyz : gp_index y <> gp_index z) by (intros E; apply Hyz, index_inj, E).
  assert (La := L). destruct La as (La & Lb & _). cbn [length P add_loop] in Lb.
  destruct (reach_op e p He c w a P 0 (AddImmediate x kk) _ w W L eq_refl ltac:(rewrite Hpc; lia) Hk I
    ltac:(unfold effect, needs, done; rewrite Kx; reflexivity)) as (c1 & R1 & O1).
  assert (L1 : loaded c1 a P) by (apply (loaded_same c c1 a P L); intros q Hq; rewrite O1; reflexivity).
  destruct (reach_op e p He c1 w a P 1 (AddImmediate y 1) _ w (proj1 R1) L1 eq_refl
    ltac:(rewrite O1; obs; rewrite Hpc; lia) ltac:(cbn; unfold u8; lia) I
    ltac:(unfold effect, needs, done; rewrite Ky; reflexivity)) as (c2 & R2 & O2).
  assert (L2 : loaded c2 a P) by (apply (loaded_same c1 c2 a P L1); intros q Hq; rewrite O2; reflexivity).
  assert (Pc2 : observe c2 PPC = a + 4) by (rewrite O2; obs; rewrite O1; obs; rewrite Hpc; lia).
  assert (Vy2 : v (observe c2) y = (reg c y + 1) mod 256).
  { unfold v at 1. rewrite O2. obs. rewrite O1. obs. reflexivity. }
  assert (Vz2 : v (observe c2) z = reg c z).
  { unfold v at 1. rewrite O2. obs. rewrite O1. obs. reflexivity. }
  destruct (reach_op e p He c2 w a P 2 (SeVxVy y z) _ w (proj1 R2) L2 eq_refl ltac:(rewrite Pc2; lia) I I
    ltac:(unfold effect, needs, done; rewrite Ky, Kz; reflexivity)) as (c3 & R3 & O3).
  rewrite Vy2, Vz2 in O3. fold b in O3.
  pose proof (reach_trans _ _ _ _ _ _ _ _ _ _ (reach_trans _ _ _ _ _ _ _ _ _ _ R1 R2) R3) as R. cbn [Nat.add] in R.
  assert (K3 : forall q, q <> PPC -> observe c3 q =
    upd (upd (observe c) (PV (gp_index x)) ((reg c x + kk) mod 256)) (PV (gp_index y)) ((reg c y + 1) mod 256) q).
  { intros q Hq. rewrite O3. assert (E : forall g k, advance g k q = g q) by (intros g k; unfold advance, upd; destruct q; try reflexivity; congruence).
    rewrite E, O2. unfold upd at 1. rewrite E, O1. unfold upd at 1. rewrite E.
    unfold upd. unfold v, reg. rewrite O1. obs. reflexivity. }
  destruct b.
  - exists c3. split; [exact R|]. intros q. unfold upd at 1. destruct q; cbn [part_eqb]; try (apply K3; discriminate).
    rewrite O3. obs. rewrite Pc2. lia.
  - assert (L3 : loaded c3 a P) by (apply (loaded_same c2 c3 a P L2); intros q Hq; rewrite O3; reflexivity).
    destruct (reach_op e p He c3 w a P 3 (JpNonV0Indexed a) _ w (proj1 R3) L3 eq_refl
      ltac:(rewrite O3; obs; rewrite Pc2; lia) ltac:(cbn; lia) I eq_refl) as (c4 & R4 & O4).
    exists c4. split; [exact (reach_trans _ _ _ _ _ _ _ _ _ _ R R4)|].
    intros q. rewrite O4. unfold upd at 1 2. destruct q; cbn [part_eqb]; try reflexivity; apply K3; discriminate.
Qed.

Lemma add_rounds n : forall c w, well_formed c -> loaded c a P -> observe c PPC = a ->
  times (reg c y) (reg c z) = Z.of_nat (S n) ->
  exists c', reach e p c w (4 * n + 3) c' w /\ forall q, observe c' q =
    upd (upd (upd (observe c) (PV (gp_index x)) ((reg c x + Z.of_nat (S n) * kk) mod 256)) (PV (gp_index y)) (reg c z)) PPC (a + 8) q.
Proof.
  assert (Ixy : gp_index x <> gp_index y) by (intros E; apply Hxy, index_inj, E).
  assert (Ixz : gp_index x <> gp_index z) by (intros E; apply Hxz, index_inj, E).
  assert (Iyz : gp_index y <> gp_index z) by (intros E; apply Hyz, index_inj, E).
  induction n as [|n IH]; intros c w W L Hpc Ht;
    destruct (add_round c w W L Hpc) as (c1 & R1 & O1);
    pose proof (v_byte c y W Hy) as By; pose proof (v_byte c z W Hz) as Bz; unfold u8 in By, Bz; unfold times in Ht.
  - replace ((reg c y + 1) mod 256 =? reg c z) with true in * by (destruct (reg c y <? reg c z) eqn:?; lia).
    exists c1. split; [exact R1|]. intros q. rewrite O1. replace ((reg c y + 1) mod 256) with (reg c z) by (destruct (reg c y <? reg c z) eqn:?; lia).
    change (Z.of_nat 1) with 1. rewrite Z.mul_1_l. reflexivity.
  - replace ((reg c y + 1) mod 256 =? reg c z) with false in * by (destruct (reg c y <? reg c z) eqn:?; lia).
    assert (L1 : loaded c1 a P) by (apply (loaded_same c c1 a P L); intros q Hq; rewrite O1; reflexivity).
    assert (E0 : reg c1 x = (reg c x + kk) mod 256) by (unfold reg at 1; rewrite O1; obs; reflexivity).
    assert (E1 : reg c1 y = (reg c y + 1) mod 256) by (unfold reg at 1; rewrite O1; obs; reflexivity).
    assert (E2 : reg c1 z = reg c z) by (unfold reg at 1; rewrite O1; obs; reflexivity).
    destruct (IH c1 w (proj1 R1) L1) as (c2 & R2 & O2).
    + rewrite O1. obs. reflexivity.
    + rewrite E1, E2. unfold times. destruct (reg c y <? reg c z) eqn:?, ((reg c y + 1) mod 256 <? reg c z) eqn:?; lia.
    + exists c2. split; [replace (4 * S n + 3)%nat with (4 + (4 * n + 3))%nat by lia; exact (reach_trans _ _ _ _ _ _ _ _ _ _ R1 R2)|].
      intros q. rewrite O2, E0, E2.
      replace (((reg c x + kk) mod 256 + Z.of_nat (S n) * kk) mod 256) with ((reg c x + Z.of_nat (S (S n)) * kk) mod 256)
        by (rewrite Zplus_mod_idemp_l; f_equal; lia).
      unfold upd. rewrite O1. unfold upd. destruct q; cbn [part_eqb]; try reflexivity.
      destruct (gp_index y =? x0); [reflexivity|]. destruct (gp_index x =? x0); reflexivity.
Qed.
End AddLoop.

Section FillLoop.
Context (e : environment) (p : profile) (He : env_ok e).
Context (y z : gp_register) (a : Z) (Hy : y <> Vf) (Hz : z <> Vf) (Hyz : y <> z) (H0z : z <> V0).
Let P := fill_loop y z a.

Lemma fill_round c w : well_formed c -> loaded c a P -> observe c PPC = a -> observe c PI <= 0xfff ->
  (observe c PI < a \/ a + 10 <= observe c PI) ->
  let b := (reg c z + 255) mod 256 =? 0 in
  exists c', reach e p c w (if b then 4 else 5) c' w /\ forall q, observe c' q =
    upd (upd (upd (upd (observe c) (PMem (observe c PI)) (reg c V0)) PI (observe c PI + reg c y))
             (PV (gp_index z)) ((reg c z + 255) mod 256))
        PPC (if b then a + 10 else a) q.
Proof.
  intros W L Hpc Hi Hout b. pose proof (has_of y Hy) as Ky. pose proof (has_of z Hz) as Kz.
  assert (Iyz : gp_index y <> gp_index z) by (intros E; apply Hyz, index_inj, E).
  assert (Ui : u16 (observe c PI)) by exact (wf_i c W). assert (By := v_byte c y W Hy). unfold u16, u8 in *.
  assert (La := L). destruct La as (La & Lb & _). cbn [length P fill_loop] in Lb.
  assert (E0 : effect e p (observe c) w (StoreRegistersToMemory V0) = Some (fun q => match q with
     | PMem b => if (observe c PI <=? b) && (b <=? observe c PI + 0) then observe c (PV (b - observe c PI)) else observe c q
     | _ => advance (observe c) 2 q end, w)).
  { unfold effect, needs, done. change (has V0) with true. cbn [gp_index andb]. replace (_ <=? _) with true by lia. reflexivity. }
  destruct (reach_op e p He c w a P 0 (StoreRegistersToMemory V0) _ w W L eq_refl ltac:(rewrite Hpc; lia) I I E0) as (c1 & R1 & O1).
  assert (L1 : loaded c1 a P).
  { apply (loaded_same c c1 a P L). intros q Hq. rewrite O1. cbn [length P fill_loop] in Hq.
    replace ((observe c PI <=? q) && (q <=? observe c PI + 0)) with false by lia. reflexivity. }
  assert (M1 : forall q, observe c1 q = upd (upd (observe c) (PMem (observe c PI)) (reg c V0)) PPC (a + 2) q).
  { intros q. rewrite O1. unfold upd. destruct q; cbn [part_eqb]; try reflexivity.
    - obs. rewrite Hpc. lia.
    - destruct (Z.eqb_spec (observe c PI) a0) as [<-|N].
      + replace (_ && _) with true by lia. rewrite Z.sub_diag. reflexivity.
      + replace (_ && _) with false by lia. reflexivity. }
  destruct (reach_op e p He c1 w a P 1 (AddIRegisterIndexed y) _ w (proj1 R1) L1 eq_refl
    ltac:(rewrite M1; obs; lia) I I ltac:(unfold effect, needs, done; rewrite Ky; reflexivity)) as (c2 & R2 & O2).
  assert (L2 : loaded c2 a P) by (apply (loaded_same c1 c2 a P L1); intros q Hq; rewrite O2; reflexivity).
  assert (M2 : forall q, observe c2 q = upd (upd (upd (observe c) (PMem (observe c PI)) (reg c V0)) PI (observe c PI + reg c y)) PPC (a + 4) q).
  { intros q. rewrite O2. unfold advance, v. rewrite !M1. unfold upd, reg in *. cbn [part_eqb].
    destruct q; cbn [part_eqb]; try (rewrite M1; reflexivity); lia. }
  destruct (reach_op e p He c2 w a P 2 (AddImmediate z 0xff) _ w (proj1 R2) L2 eq_refl
    ltac:(rewrite M2; obs; lia) ltac:(cbn; unfold u8; lia) I ltac:(unfold effect, needs, done; rewrite Kz; reflexivity)) as (c3 & R3 & O3).
  assert (L3 : loaded c3 a P) by (apply (loaded_same c2 c3 a P L2); intros q Hq; rewrite O3; reflexivity).
  assert (M3 : forall q, observe c3 q = upd (upd (upd (upd (observe c) (PMem (observe c PI)) (reg c V0)) PI (observe c PI + reg c y))
             (PV (gp_index z)) ((reg c z + 255) mod 256)) PPC (a + 6) q).
  { intros q. rewrite O3. unfold advance, v. rewrite !M2. unfold upd, reg. cbn [part_eqb].
    destruct q; cbn [part_eqb]; try (rewrite M2; reflexivity); lia. }
  assert (Vz3 : v (observe c3) z = (reg c z + 255) mod 256) by (unfold v at 1; rewrite M3; obs; reflexivity).
  destruct (reach_op e p He c3 w a P 3 (SeImmediate z 0) _ w (proj1 R3) L3 eq_refl ltac:(rewrite M3; obs; lia)
    ltac:(cbn; unfold u8; lia) I ltac:(unfold effect, needs, done; rewrite Kz; reflexivity)) as (c4 & R4 & O4).
  rewrite Vz3 in O4. fold b in O4.
  pose proof (reach_trans _ _ _ _ _ _ _ _ _ _ (reach_trans _ _ _ _ _ _ _ _ _ _ (reach_trans _ _ _ _ _ _ _ _ _ _ R1 R2) R3) R4) as R.
  cbn [Nat.add] in R. destruct b.
  - exists c4. split; [exact R|]. intros q. rewrite O4. unfold advance. rewrite M3. unfold upd. cbn [part_eqb].
    destruct q; cbn [part_eqb]; try (rewrite M3; reflexivity). lia.
  - assert (L4 : loaded c4 a P) by (apply (loaded_same c3 c4 a P L3); intros q Hq; rewrite O4; reflexivity).
    destruct (reach_op e p He c4 w a P 4 (JpNonV0Indexed a) _ w (proj1 R4) L4 eq_refl
      ltac:(rewrite O4; unfold advance; rewrite M3; obs; lia) ltac:(cbn; lia) I eq_refl) as (c5 & R5 & O5).
    exists c5. split; [exact (reach_trans _ _ _ _ _ _ _ _ _ _ R R5)|].
    intros q. rewrite O5. unfold upd at 1 2. destruct q; cbn [part_eqb]; try reflexivity;
      rewrite O4; unfold advance, upd at 1; cbn [part_eqb]; rewrite M3; reflexivity.
Qed.

Lemma fill_rounds n : forall c w, well_formed c -> loaded c a P -> observe c PPC = a ->
  (if reg c z =? 0 then 256 else reg c z) = Z.of_nat (S n) ->
  observe c PI + Z.of_nat n * reg c y <= 0xfff ->
  (forall k, 0 <= k <= Z.of_nat n -> observe c PI + k * reg c y < a \/ a + 10 <= observe c PI + k * reg c y) ->
  exists c', reach e p c w (5 * n + 4) c' w /\
    observe c' PPC = a + 10 /\ observe c' PI = observe c PI + Z.of_nat (S n) * reg c y /\ reg c' z = 0 /\
    (forall k, 0 <= k <= Z.of_nat n -> observe c' (PMem (observe c PI + k * reg c y)) = reg c V0) /\
    (forall q, q <> PPC -> q <> PI -> q <> PV (gp_index z) ->
       (forall k, 0 <= k <= Z.of_nat n -> q <> PMem (observe c PI + k * reg c y)) -> observe c' q = observe c q).
Proof.
  assert (Iyz : gp_index y <> gp_index z) by (intros E; apply Hyz, index_inj, E).
  assert (I0z : gp_index z <> gp_index V0) by (intros E; apply H0z, index_inj, E).
  induction n as [|n IH]; intros c w W L Hpc Ht Hi Hout;
    assert (By := v_byte c y W Hy); assert (Bz := v_byte c z W Hz); assert (Ui := wf_i c W : u16 (observe c PI)); unfold u8, u16 in By, Bz, Ui;
    (destruct (fill_round c w W L Hpc ltac:(lia) ltac:(specialize (Hout 0 ltac:(lia)); lia)) as (c1 & R1 & O1)).
  - replace ((reg c z + 255) mod 256 =? 0) with true in * by (destruct (reg c z =? 0) eqn:?; lia).
    exists c1. split; [exact R1|]. split; [rewrite O1; reflexivity|]. split; [rewrite O1; obs; lia|].
    split; [unfold reg at 1; rewrite O1; obs; destruct (reg c z =? 0) eqn:?; unfold reg in *; lia|]. split.
    + intros k Hk0. assert (k = 0) by lia. subst k. rewrite Z.mul_0_l, Z.add_0_r, O1. obs. reflexivity.
    + intros q Q1 Q2 Q3 Q4. rewrite O1. unfold upd. specialize (Q4 0 ltac:(lia)). rewrite Z.mul_0_l, Z.add_0_r in Q4.
      destruct q; cbn [part_eqb]; try reflexivity; try congruence.
      * destruct (Z.eqb_spec (gp_index z) x); [congruence|reflexivity].
      * destruct (Z.eqb_spec (observe c PI) a0); [congruence|reflexivity].
  - replace ((reg c z + 255) mod 256 =? 0) with false in * by (destruct (reg c z =? 0) eqn:?; lia).
    assert (L1 : loaded c1 a P).
    { apply (loaded_same c c1 a P L). intros q Hq. rewrite O1. unfold upd. cbn [part_eqb length P fill_loop] in *.
      specialize (Hout 0 ltac:(lia)). replace (observe c PI =? q) with false by lia. reflexivity. }
    assert (E0 : reg c1 V0 = reg c V0) by (unfold reg; rewrite O1; obs; reflexivity).
    assert (E1 : reg c1 y = reg c y) by (unfold reg; rewrite O1; obs; reflexivity).
    assert (E2 : reg c1 z = (reg c z + 255) mod 256) by (unfold reg at 1; rewrite O1; obs; reflexivity).
    assert (E3 : observe c1 PI = observe c PI + reg c y) by (rewrite O1; obs; reflexivity).
    destruct (IH c1 w (proj1 R1) L1) as (c2 & R2 & A1 & A2 & A3 & A4 & A5).
    + rewrite O1. obs. reflexivity.
    + rewrite E2. destruct (reg c z =? 0) eqn:?, ((reg c z + 255) mod 256 =? 0) eqn:?; lia.
    + rewrite E1, E3. lia.
    + intros k Hk0. rewrite E1, E3. specialize (Hout (k + 1) ltac:(lia)). lia.
    + exists c2. split; [replace (5 * S n + 4)%nat with (5 + (5 * n + 4))%nat by lia; exact (reach_trans _ _ _ _ _ _ _ _ _ _ R1 R2)|].
      split; [exact A1|]. split; [rewrite A2, E1, E3; lia|]. split; [exact A3|].
      rewrite E0, E1, E3 in A4. rewrite E1, E3 in A5. split.
      * intros k Hk0. destruct (Z.eq_dec k 0) as [->|Nk].
        -- rewrite Z.mul_0_l, Z.add_0_r. destruct (Z.eq_dec (reg c y) 0) as [Ys|Ys].
           ++ specialize (A4 0 ltac:(lia)). rewrite Ys, Z.mul_0_l, !Z.add_0_r in A4. exact A4.
           ++ rewrite A5; [rewrite O1; obs; reflexivity|discriminate|discriminate|discriminate|].
              intros k Hk1 E. injection E as E. assert (0 <= k * reg c y) by (apply Z.mul_nonneg_nonneg; lia). lia.
        -- specialize (A4 (k - 1) ltac:(lia)). replace (observe c PI + reg c y + (k - 1) * reg c y) with (observe c PI + k * reg c y) in A4 by lia.
           exact A4.
      * intros q Q1 Q2 Q3 Q4. rewrite A5; [|exact Q1|exact Q2|exact Q3|].
        -- rewrite O1. unfold upd. specialize (Q4 0 ltac:(lia)). rewrite Z.mul_0_l, Z.add_0_r in Q4.
           destruct q; cbn [part_eqb]; try reflexivity; try congruence.
           ++ destruct (Z.eqb_spec (gp_index z) x); [congruence|reflexivity].
           ++ destruct (Z.eqb_spec (observe c PI) a0); [congruence|reflexivity].
        -- intros k Hk1. specialize (Q4 (k + 1) ltac:(lia)). replace (observe c PI + reg c y + k * reg c y) with (observe c PI + (k + 1) * reg c y) by lia.
           exact Q4.
Qed.
End FillLoop.

Section Straight.
Context (e : environment) (p : profile) (He : env_ok e).

Lemma digits_reach c w a x : well_formed c -> loaded c a (digits_program x) -> observe c PPC = a -> x <> Vf ->
  observe c PI + 2 <= 0xfff -> (observe c PI + 2 < a + 2 \/ a + 4 <= observe c PI) ->
  exists c', reach e p c w 2 c' w /\ forall q, observe c' q = match q with
    | PPC => a + 4
    | PMem b => if b =? observe c PI then reg c x / 100
                else if b =? observe c PI + 1 then (reg c x / 10) mod 10
                else if b =? observe c PI + 2 then reg c x mod 10 else observe c q
    | PV k => if k =? 0 then reg c x / 100
              else if k =? 1 then (reg c x / 10) mod 10
              else if k =? 2 then reg c x mod 10 else observe c q
    | _ => observe c q end.
Proof.
  intros W L Hpc Hx Hi Hout. pose proof (has_of x Hx) as Kx. set (P := digits_program x) in *.
  assert (Ui := wf_i c W : u16 (observe c PI)). unfold u16 in Ui.
  assert (La := L). destruct La as (La & Lb & Lw). cbn [length P digits_program] in Lb.
  destruct (reach_op e p He c w a P 0 (LdBcd x) _ w W L eq_refl ltac:(rewrite Hpc; lia) I I
    ltac:(unfold effect, needs, done; rewrite Kx; replace (observe c PI + 2 <=? 4095) with true by lia; reflexivity)) as (c1 & R1 & O1).
  assert (Pc1 : observe c1 PPC = a + 2) by (rewrite O1; cbn [part_eqb]; obs; rewrite Hpc; lia).
  assert (I1 : observe c1 PI = observe c PI) by (rewrite O1; reflexivity).
  assert (M1 : forall b, observe c1 (PMem b) = if b =? observe c PI then reg c x / 100
                else if b =? observe c PI + 1 then (reg c x / 10) mod 10
                else if b =? observe c PI + 2 then reg c x mod 10 else observe c (PMem b)).
  { intros b. rewrite O1. cbn [part_eqb]. repeat (destruct (b =? _); [reflexivity|]). reflexivity. }
  assert (F1 : fetches p c1 (encode (ReadRegistersFromMemory V2))).
  { split; [right; lia|]. rewrite Pc1. rewrite (Z.mod_small (_ + 1)) by lia. rewrite !M1.
    replace (a + 2 =? observe c PI) with false by lia. replace (a + 2 =? observe c PI + 1) with false by lia.
    replace (a + 2 =? observe c PI + 2) with false by lia. replace (a + 2 + 1 =? observe c PI) with false by lia.
    replace (a + 2 + 1 =? observe c PI + 1) with false by lia. replace (a + 2 + 1 =? observe c PI + 2) with false by lia.
    symmetry. exact (Lw 1%nat (ReadRegistersFromMemory V2) eq_refl). }
  assert (L1 : loaded c1 (a + 2) [ReadRegistersFromMemory V2]).
  { split; [lia|]. split; [cbn [length]; lia|]. intros [|k] op Hk; [|destruct k; discriminate].
    injection Hk as <-. change (Z.of_nat 0) with 0. rewrite Z.mul_0_r, Z.add_0_r.
    destruct F1 as (_ & F1). rewrite Pc1, (Z.mod_small (_ + 1)) in F1 by lia. symmetry. exact F1. }
  destruct (reach_op e p He c1 w (a + 2) _ 0 (ReadRegistersFromMemory V2) _ w (proj1 R1) L1 eq_refl ltac:(rewrite Pc1; lia) I I
    ltac:(unfold effect, needs, done; change (has V2) with true; cbn [gp_index andb]; rewrite I1;
          instantiate (1 := fun q => match q with PV k => if (0 <=? k) && (k <=? 2) then observe c1 (PMem ((observe c PI + k) mod 65536)) else observe c1 q
                                     | _ => advance (observe c1) 2 q end);
          destruct p; [replace (observe c PI + 2 <? 65536) with true by lia|]; reflexivity)) as (c2 & R2 & O2).
  exists c2. split; [exact (reach_trans _ _ _ _ _ _ _ _ _ _ R1 R2)|].
  intros q. rewrite O2. destruct q; try (unfold advance, upd; cbn [part_eqb]; rewrite O1; reflexivity).
  - unfold advance, upd. cbn [part_eqb]. rewrite Pc1. lia.
  - destruct (Z.eqb_spec x0 0) as [->|N0];
      [change ((0 <=? 0) && (0 <=? 2)) with true; cbv iota; rewrite M1, Z.add_0_r, Z.mod_small, Z.eqb_refl by lia; reflexivity|].
    destruct (Z.eqb_spec x0 1) as [->|N1].
    { change ((0 <=? 1) && (1 <=? 2)) with true. cbv iota. rewrite M1, Z.mod_small, Z.eqb_refl by lia.
      replace (observe c PI + 1 =? observe c PI) with false by lia. reflexivity. }
    destruct (Z.eqb_spec x0 2) as [->|N2].
    { change ((0 <=? 2) && (2 <=? 2)) with true. cbv iota. rewrite M1, Z.mod_small, Z.eqb_refl by lia.
      replace (observe c PI + 2 =? observe c PI) with false by lia.
      replace (observe c PI + 2 =? observe c PI + 1) with false by lia. reflexivity. }
    replace ((0 <=? x0) && (x0 <=? 2)) with false by lia. rewrite O1. reflexivity.
Qed.

Lemma copy_reach c w a x from to : well_formed c -> loaded c a (copy_program x from to) -> observe c PPC = a -> x <> Vf ->
  0 <= from < 4096 -> 0 <= to -> to + gp_index x < 4096 ->
  exists c', reach e p c w 4 c' w /\ forall q, observe c' q = match q with
    | PPC => a + 8
    | PI => to
    | PMem b => if (to <=? b) && (b <=? to + gp_index x) then observe c (PMem (from + (b - to))) else observe c q
    | PV k => if (0 <=? k) && (k <=? gp_index x) then observe c (PMem (from + k)) else observe c q
    | _ => observe c q end.
Proof.
  intros W L Hpc Hx Hf Ht0 Ht. pose proof (has_of x Hx) as Kx. set (P := copy_program x from to) in *.
  assert (Bx : 0 <= gp_index x < 15) by (split; [destruct x; cbn; lia|destruct x; cbn; try lia; congruence]).
  assert (La := L). destruct La as (La & Lb & _). cbn [length P copy_program] in Lb.
  destruct (reach_op e p He c w a P 0 (LdAbsolute from) _ w W L eq_refl ltac:(rewrite Hpc; lia) Hf I eq_refl) as (c1 & R1 & O1).
  assert (L1 : loaded c1 a P) by (apply (loaded_same c c1 a P L); intros q Hq; rewrite O1; reflexivity).
  assert (Pc1 : observe c1 PPC = a + 2) by (rewrite O1; obs; rewrite Hpc; lia).
  assert (I1 : observe c1 PI = from) by (rewrite O1; reflexivity).
  destruct (reach_op e p He c1 w a P 1 (ReadRegistersFromMemory x) _ w (proj1 R1) L1 eq_refl ltac:(rewrite Pc1; lia) I I
    ltac:(unfold effect, needs, done; rewrite Kx; rewrite I1;
          instantiate (1 := fun q => match q with PV k => if (0 <=? k) && (k <=? gp_index x) then observe c1 (PMem ((from + k) mod 65536)) else observe c1 q
                                     | _ => advance (observe c1) 2 q end);
          destruct p; [replace (from + gp_index x <? 65536) with true by lia|]; reflexivity)) as (c2 & R2 & O2).
  assert (L2 : loaded c2 a P) by (apply (loaded_same c1 c2 a P L1); intros q Hq; rewrite O2; reflexivity).
  assert (Pc2 : observe c2 PPC = a + 4) by (rewrite O2; obs; rewrite Pc1; lia).
  destruct (reach_op e p He c2 w a P 2 (LdAbsolute to) _ w (proj1 R2) L2 eq_refl ltac:(rewrite Pc2; lia) ltac:(cbn; lia) I eq_refl) as (c3 & R3 & O3).
  assert (L3 : loaded c3 a P) by (apply (loaded_same c2 c3 a P L2); intros q Hq; rewrite O3; reflexivity).
  assert (Pc3 : observe c3 PPC = a + 6) by (rewrite O3; obs; rewrite Pc2; lia).
  assert (I3 : observe c3 PI = to) by (rewrite O3; reflexivity).
  destruct (reach_op e p He c3 w a P 3 (StoreRegistersToMemory x) _ w (proj1 R3) L3 eq_refl ltac:(rewrite Pc3; lia) I I
    ltac:(unfold effect, needs, done; rewrite Kx; rewrite I3; replace (to + gp_index x <=? 4095) with true by lia; reflexivity)) as (c4 & R4 & O4).
  exists c4. split.
  { exact (reach_trans _ _ _ _ _ _ _ _ _ _ (reach_trans _ _ _ _ _ _ _ _ _ _ (reach_trans _ _ _ _ _ _ _ _ _ _ R1 R2) R3) R4). }
  assert (M : forall b, observe c3 (PMem b) = observe c (PMem b)).
  { intros b. rewrite O3. obs. rewrite O2. obs. rewrite O1. reflexivity. }
  assert (V : forall k, observe c3 (PV k) = if (0 <=? k) && (k <=? gp_index x) then observe c (PMem (from + k)) else observe c (PV k)).
  { intros k. rewrite O3. obs. rewrite O2. destruct ((0 <=? k) && (k <=? gp_index x)) eqn:B.
    - rewrite Z.mod_small by lia. rewrite O1. reflexivity.
    - rewrite O1. reflexivity. }
  intros q. rewrite O4. destruct q; try (unfold advance, upd; cbn [part_eqb]; rewrite O3; unfold advance, upd; cbn [part_eqb];
    rewrite O2; unfold advance, upd; cbn [part_eqb]; rewrite O1; reflexivity).
  - unfold advance, upd. cbn [part_eqb]. rewrite Pc3. lia.
  - unfold advance, upd. cbn [part_eqb]. exact I3.
  - unfold advance, upd. cbn [part_eqb]. apply V.
  - rewrite V, M. destruct ((to <=? a0) && (a0 <=? to + gp_index x)) eqn:B; [|reflexivity].
    replace ((0 <=? a0 - to) && (a0 - to <=? gp_index x)) with true by lia. reflexivity.
Qed.
End Straight.

Section WaitLoop.
Context (e : environment) (p : profile) (He : env_ok e).
Context (x : gp_register) (a : Z) (Hx : x <> Vf).
Let P := wait_loop x a.

Lemma clocked_zero n s t : u8 n -> clocked n s t = 0 <-> run_down n s t.
Proof.
  unfold clocked, run_down, u8. intros Hn.
  assert (Q : forall m, 0 <= Z.max 0 (t - s) / 1000000000 /\ (0 < m -> (m <= Z.max 0 (t - s) / 1000000000 <-> m * 1000000000 <= t - s))).
  { intros m. split; [apply Z.div_pos; lia|]. intros Hm. split; intros H; lia. }
  destruct (Q n) as (Q0 & Q1). split; intros H.
  - destruct (Z.eq_dec n 0); [left; assumption|right]. apply Q1 in H || (assert (n <= Z.max 0 (t - s) / 1000000000) as K by lia; apply Q1 in K; lia).
  - destruct H as [->|H]; [lia|]. destruct (Z.eq_dec n 0); [subst; lia|].
    assert (n <= Z.max 0 (t - s) / 1000000000) by (apply Q1; lia). lia.
Qed.

Lemma wait_round c w : well_formed c -> loaded c a P -> observe c PPC = a ->
  let t := clocked (observe c PDelay) (observe c PDelayAt) (env_time e (w_time w)) in
  exists c', reach e p c w (if t =? 0 then 2 else 3) c' (mkWorld (S (w_time w)) (w_random w)) /\
    forall q, observe c' q = upd (upd (observe c) (PV (gp_index x)) t) PPC (if t =? 0 then a + 6 else a) q.
Proof.
  intros W L Hpc t. pose proof (has_of x Hx) as Kx. assert (La := L). destruct La as (La & Lb & _). cbn [length P wait_loop] in Lb.
  destruct (reach_op e p He c w a P 0 (LdDelayTimerSrcTx x) _ _ W L eq_refl ltac:(rewrite Hpc; lia) I I
    ltac:(unfold effect, needs; rewrite Kx; reflexivity)) as (c1 & R1 & O1).
  fold t in O1. unfold tick in R1. set (w1 := mkWorld (S (w_time w)) (w_random w)) in *.
  assert (L1 : loaded c1 a P) by (apply (loaded_same c c1 a P L); intros q Hq; rewrite O1; reflexivity).
  assert (Pc1 : observe c1 PPC = a + 2) by (rewrite O1; obs; rewrite Hpc; lia).
  assert (V1 : v (observe c1) x = t) by (unfold v; rewrite O1; obs; reflexivity).
  destruct (reach_op e p He c1 w1 a P 1 (SeImmediate x 0) _ w1 (proj1 R1) L1 eq_refl ltac:(rewrite Pc1; lia)
    ltac:(cbn; unfold u8; lia) I ltac:(unfold effect, needs, done; rewrite Kx; reflexivity)) as (c2 & R2 & O2).
  rewrite V1 in O2. pose proof (reach_trans _ _ _ _ _ _ _ _ _ _ R1 R2) as R. cbn [Nat.add] in R.
  destruct (t =? 0).
  - exists c2. split; [exact R|]. intros q. rewrite O2. unfold advance. rewrite Pc1. unfold upd. destruct q; cbn [part_eqb];
      try (rewrite O1; reflexivity). lia.
  - assert (L2 : loaded c2 a P) by (apply (loaded_same c1 c2 a P L1); intros q Hq; rewrite O2; reflexivity).
    destruct (reach_op e p He c2 w1 a P 2 (JpNonV0Indexed a) _ w1 (proj1 R2) L2 eq_refl
      ltac:(rewrite O2; obs; rewrite Pc1; lia) ltac:(cbn; lia) I eq_refl) as (c3 & R3 & O3).
    exists c3. split; [exact (reach_trans _ _ _ _ _ _ _ _ _ _ R R3)|]. intros q. rewrite O3. unfold upd at 1 2.
    destruct q; cbn [part_eqb]; try reflexivity; rewrite O2; unfold advance, upd at 1; cbn [part_eqb]; rewrite O1; reflexivity.
Qed.

Lemma wait_rounds n : forall c w, well_formed c -> loaded c a P -> observe c PPC = a ->
  (forall j, (j < n)%nat -> ~ run_down (observe c PDelay) (observe c PDelayAt) (env_time e (w_time w + j))) ->
  exists c', reach e p c w (3 * n) c' (mkWorld (w_time w + n) (w_random w)) /\ loaded c' a P /\
    forall q, q <> PV (gp_index x) -> observe c' q = observe c q.
Proof.
  induction n as [|n IH]; intros c w W L Hpc Hn.
  - exists c. rewrite Nat.add_0_r. destruct w. split; [exact (reach_0 e p c _ W)|]. split; [exact L|]. reflexivity.
  - destruct (wait_round c w W L Hpc) as (c1 & R1 & O1). assert (Ud := wf_dt c W : u8 (observe c PDelay)).
    pose proof (Hn 0%nat ltac:(lia)) as H0. rewrite Nat.add_0_r in H0. rewrite <- clocked_zero in H0 by exact Ud.
    replace (_ =? 0) with false in * by (symmetry; apply Z.eqb_neq; exact H0).
    assert (L1 : loaded c1 a P) by (apply (loaded_same c c1 a P L); intros q Hq; rewrite O1; reflexivity).
    destruct (IH c1 (mkWorld (S (w_time w)) (w_random w)) (proj1 R1) L1) as (c2 & R2 & L2 & O2).
    + rewrite O1. reflexivity.
    + intros j Hj. rewrite !O1. unfold upd. cbn [part_eqb w_time]. replace (S (w_time w) + j)%nat with (w_time w + S j)%nat by lia.
      apply Hn. lia.
    + exists c2. split.
      * replace (3 * S n)%nat with (3 + 3 * n)%nat by lia. replace (w_time w + S n)%nat with (S (w_time w) + n)%nat by lia.
        exact (reach_trans _ _ _ _ _ _ _ _ _ _ R1 R2).
      * split; [exact L2|]. intros q Hq. rewrite O2 by exact Hq. rewrite O1. unfold upd. destruct q; cbn [part_eqb]; try reflexivity; try (symmetry; exact Hpc).
        destruct (Z.eqb_spec (gp_index x) x0); [congruence|reflexivity].
Qed.
End WaitLoop.
