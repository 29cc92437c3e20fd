(** C93-C95: CHIP-8 programs do what they are written for. *)
From Verif Require Import Base Arith ModelMap ModelStep ModelDisplay ModelChip8 ModelOpsChip8 ModelRunChip8.
From Verif Require Import SpecMap Link6502 SpecChip8 SpecChip8Parts SpecChip8Run ProofChip8 ProofChip8Step ProofChip8Reach ProofChip8Run
  PropertiesChip8Run SpecRoutines8 ProofRoutines8.

Lemma reach_run e p c w n c' w' : env_ok e -> well_formed c -> reach e p c w n c' w' -> run e p c n w = Ok (Ready c', w').
Proof.
  intros He W (_ & h & X & <- & F). exact (proj1 (C52_compose_partial e p c w h c' w' 0 W He X F)).
Qed.

(** ** C93 *)
(** The adding loop ends, after as many rounds as Vy has to be counted up to
    Vz (256 if they are equal), having added kk each time; nothing else has
    changed. *)
Theorem C93_add_loop : forall e p c w x y z kk a, env_ok e -> well_formed c ->
  NoDup [x; y; z; Vf] -> u8 kk -> loaded c a (add_loop x y z kk a) -> observe c PPC = a ->
  let n := times (reg c y) (reg c z) in
  exists c', run e p c (Z.to_nat (4 * n - 1)) w = Ok (Ready c', w) /\
    observe c' PPC = a + 8 /\ reg c' x = (reg c x + n * kk) mod 256 /\ reg c' y = reg c z /\
    forall q, q <> PPC -> q <> PV (gp_index x) -> q <> PV (gp_index y) -> observe c' q = observe c q.
Proof.
  intros e p c w x y z kk a He W N Hk L Hpc n.
  assert (D : x <> Vf /\ y <> Vf /\ z <> Vf /\ x <> y /\ x <> z /\ y <> z).
  { inversion_clear N as [|? ? N1 M1]. inversion_clear M1 as [|? ? N2 M2]. inversion_clear M2 as [|? ? N3 M3]. cbn [In] in *.
    repeat split; intros E; subst; tauto. }
  destruct D as (Hx & Hy & Hz & Hxy & Hxz & Hyz).
  assert (By := v_byte c y W Hy). assert (Bz := v_byte c z W Hz). unfold u8 in By, Bz.
  assert (Hn : 1 <= n) by (unfold n, times; destruct (_ <? _) eqn:?; lia).
  destruct (add_rounds e p He x y z kk a Hx Hy Hz Hxy Hxz Hyz Hk (Z.to_nat (n - 1)) c w W L Hpc) as (c' & R & O);
    [fold n; lia|].
  replace (Z.of_nat (S (Z.to_nat (n - 1)))) with n in O by lia.
  assert (Ixy : gp_index x <> gp_index y) by (intros E; apply Hxy, index_inj, E).
  exists c'. split; [|split; [|split; [|split]]].
  - replace (Z.to_nat (4 * n - 1)) with (4 * Z.to_nat (n - 1) + 3)%nat by lia. exact (reach_run _ _ _ _ _ _ _ He W R).
  - rewrite O. reflexivity.
  - unfold reg at 1. rewrite O. obs. reflexivity.
  - unfold reg at 1. rewrite O. obs. reflexivity.
  - intros q Q1 Q2 Q3. rewrite O. unfold upd. destruct q; cbn [part_eqb]; try reflexivity; [congruence|].
    destruct (Z.eqb_spec (gp_index y) x0); [congruence|]. destruct (Z.eqb_spec (gp_index x) x0); [congruence|reflexivity].
Qed.

(** The filling loop stores V0 at as many addresses as Vz says (256 if it is
    0), Vy apart, and nothing else in memory changes. *)
Theorem C93_fill_loop : forall e p c w y z a, env_ok e -> well_formed c ->
  NoDup [y; z; Vf] -> z <> V0 -> loaded c a (fill_loop y z a) -> observe c PPC = a ->
  let n := if reg c z =? 0 then 256 else reg c z in
  let cell k := observe c PI + k * reg c y in
  cell (n - 1) <= 0xfff -> (forall k, 0 <= k < n -> cell k < a \/ a + 10 <= cell k) ->
  exists c', run e p c (Z.to_nat (5 * n - 1)) w = Ok (Ready c', w) /\
    observe c' PPC = a + 10 /\ observe c' PI = cell n /\ reg c' z = 0 /\
    (forall k, 0 <= k < n -> observe c' (PMem (cell k)) = reg c V0) /\
    forall q, q <> PPC -> q <> PI -> q <> PV (gp_index z) -> (forall k, 0 <= k < n -> q <> PMem (cell k)) ->
      observe c' q = observe c q.
Proof.
  intros e p c w y z a He W N H0z L Hpc n cell Hi Hout.
  assert (D : y <> Vf /\ z <> Vf /\ y <> z).
  { inversion_clear N as [|? ? N1 M1]. inversion_clear M1 as [|? ? N2 M2]. cbn [In] in *. repeat split; intros E; subst; tauto. }
  destruct D as (Hy & Hz & Hyz). assert (Bz := v_byte c z W Hz). unfold u8 in Bz.
  assert (Hn : 1 <= n) by (unfold n; destruct (_ =? _) eqn:?; lia).
  destruct (fill_rounds e p He y z a Hy Hz Hyz H0z (Z.to_nat (n - 1)) c w W L Hpc) as (c' & R & A1 & A2 & A3 & A4 & A5).
  - fold n. lia.
  - replace (Z.of_nat (Z.to_nat (n - 1))) with (n - 1) by lia. exact Hi.
  - intros k Hk. apply Hout. lia.
  - exists c'. split; [|split; [|split; [|split; [|split]]]].
    + replace (Z.to_nat (5 * n - 1)) with (5 * Z.to_nat (n - 1) + 4)%nat by lia. exact (reach_run _ _ _ _ _ _ _ He W R).
    + exact A1.
    + rewrite A2. unfold cell. do 2 f_equal. lia.
    + exact A3.
    + intros k Hk. apply A4. lia.
    + intros q Q1 Q2 Q3 Q4. apply A5; try assumption. intros k Hk. apply Q4. lia.
Qed.

(** ** C94 *)
(** Fx33 and F265: V0, V1 and V2 are the decimal digits of Vx. *)
Theorem C94_digits : forall e p c w a x, env_ok e -> well_formed c -> x <> Vf ->
  loaded c a (digits_program x) -> observe c PPC = a ->
  observe c PI + 2 <= 0xfff -> (observe c PI + 2 < a + 2 \/ a + 4 <= observe c PI) ->
  exists c', run e p c 2 w = Ok (Ready c', w) /\ observe c' PPC = a + 4 /\
    reg c x = 100 * reg c' V0 + 10 * reg c' V1 + reg c' V2 /\
    0 <= reg c' V0 <= 9 /\ 0 <= reg c' V1 <= 9 /\ 0 <= reg c' V2 <= 9 /\
    forall q, q <> PPC -> ~ In q [PV 0; PV 1; PV 2] ->
      ~ In q [PMem (observe c PI); PMem (observe c PI + 1); PMem (observe c PI + 2)] -> observe c' q = observe c q.
Proof.
  intros e p c w a x He W Hx L Hpc Hi Hout.
  destruct (digits_reach e p He c w a x W L Hpc Hx Hi Hout) as (c' & R & O). exists c'.
  assert (B := v_byte c x W Hx). unfold u8 in B.
  split; [exact (reach_run _ _ _ _ _ _ _ He W R)|]. split; [rewrite O; reflexivity|].
  unfold reg at 2 3 4 5 6 7 8 9 10. rewrite !O. cbn [gp_index]. change (0 =? 0) with true. change (1 =? 0) with false. change (1 =? 1) with true.
  change (2 =? 0) with false. change (2 =? 1) with false. change (2 =? 2) with true. cbv iota.
  split; [lia|]. split; [lia|]. split; [lia|]. split; [lia|].
  intros q Q1 Q2 Q3. rewrite O. cbn [In] in Q2, Q3. destruct q; try reflexivity; [congruence| |].
  - repeat match goal with |- context [?u =? ?k] => destruct (Z.eqb_spec u k); [subst; tauto|] end. reflexivity.
  - repeat match goal with |- context [?u =? ?k] => destruct (Z.eqb_spec u k); [subst; tauto|] end. reflexivity.
Qed.

(** Annn, Fx65, Ammm and Fx55: the bytes from mmm on are those that were
    there from nnn on, also when the two ranges overlap. *)
Theorem C94_copy : forall e p c w a x from to, env_ok e -> well_formed c -> x <> Vf ->
  loaded c a (copy_program x from to) -> observe c PPC = a ->
  0 <= from < 4096 -> 0 <= to -> to + gp_index x < 4096 ->
  exists c', run e p c 4 w = Ok (Ready c', w) /\ observe c' PPC = a + 8 /\
    (forall k, 0 <= k <= gp_index x -> observe c' (PMem (to + k)) = observe c (PMem (from + k))) /\
    forall q, q <> PPC -> q <> PI -> (forall k, 0 <= k <= gp_index x -> q <> PMem (to + k) /\ q <> PV k) ->
      observe c' q = observe c q.
Proof.
  intros e p c w a x from to He W Hx L Hpc Hf Ht0 Ht.
  destruct (copy_reach e p He c w a x from to W L Hpc Hx Hf Ht0 Ht) as (c' & R & O). exists c'.
  split; [exact (reach_run _ _ _ _ _ _ _ He W R)|]. split; [rewrite O; reflexivity|]. split.
  - intros k Hk. rewrite O. replace (_ && _) with true by lia. do 3 f_equal. lia.
  - intros q Q1 Q2 Q3. rewrite O. destruct q; try reflexivity; try congruence.
    + destruct ((0 <=? x0) && (x0 <=? gp_index x)) eqn:B; [|reflexivity]. destruct (Q3 x0 ltac:(lia)). congruence.
    + destruct ((to <=? a0) && (a0 <=? to + gp_index x)) eqn:B; [|reflexivity].
      destruct (Q3 (a0 - to) ltac:(lia)) as (Q & _). exfalso. apply Q. f_equal. lia.
Qed.

(** ** C95 *)
(** As long as no clock reading finds the delay timer run down the loop waits,
    reading the clock once every three instructions. *)
Theorem C95_waits : forall e p c w x a n, env_ok e -> well_formed c -> x <> Vf ->
  loaded c a (wait_loop x a) -> observe c PPC = a ->
  (forall j, (j < n)%nat -> ~ run_down (observe c PDelay) (observe c PDelayAt) (env_time e (w_time w + j))) ->
  exists c', run e p c (3 * n) w = Ok (Ready c', mkWorld (w_time w + n) (w_random w)) /\
    forall q, q <> PV (gp_index x) -> observe c' q = observe c q.
Proof.
  intros e p c w x a n He W Hx L Hpc Hn. destruct (wait_rounds e p He x a Hx n c w W L Hpc Hn) as (c' & R & _ & O).
  exists c'. split; [exact (reach_run _ _ _ _ _ _ _ He W R)|exact O].
Qed.

(** With the first reading that does, it goes on, with 0 in Vx and everything
    else as it was. *)
Theorem C95_goes_on : forall e p c w x a n, env_ok e -> well_formed c -> x <> Vf ->
  loaded c a (wait_loop x a) -> observe c PPC = a ->
  (forall j, (j < n)%nat -> ~ run_down (observe c PDelay) (observe c PDelayAt) (env_time e (w_time w + j))) ->
  run_down (observe c PDelay) (observe c PDelayAt) (env_time e (w_time w + n)) ->
  exists c', run e p c (3 * n + 2) w = Ok (Ready c', mkWorld (S (w_time w + n)) (w_random w)) /\
    observe c' PPC = a + 6 /\ reg c' x = 0 /\
    forall q, q <> PPC -> q <> PV (gp_index x) -> observe c' q = observe c q.
Proof.
  intros e p c w x a n He W Hx L Hpc Hn Hd. destruct (wait_rounds e p He x a Hx n c w W L Hpc Hn) as (c1 & R1 & L1 & O1).
  assert (Pc1 : observe c1 PPC = a) by (rewrite O1 by discriminate; exact Hpc).
  destruct (wait_round e p He x a Hx c1 (mkWorld (w_time w + n) (w_random w)) (proj1 R1) L1 Pc1) as (c2 & R2 & O2). cbn [w_time w_random] in *.
  rewrite (O1 PDelay), (O1 PDelayAt) in * by discriminate. assert (Ud := wf_dt c W : u8 (observe c PDelay)).
  apply clocked_zero in Hd; [|exact Ud]. rewrite Hd, Z.eqb_refl in *.
  exists c2. split; [exact (reach_run _ _ _ _ _ _ _ He W (reach_trans _ _ _ _ _ _ _ _ _ _ R1 R2))|].
  split; [rewrite O2; reflexivity|]. split; [unfold reg; rewrite O2; obs; reflexivity|].
  intros q Q1 Q2. rewrite O2. unfold upd. destruct q; cbn [part_eqb]; try (apply O1; discriminate); [congruence|].
  destruct (Z.eqb_spec (gp_index x) x0); [congruence|]. apply O1. exact Q2.
Qed.

Print Assumptions C93_add_loop.
Print Assumptions C93_fill_loop.
Print Assumptions C94_digits.
Print Assumptions C94_copy.
Print Assumptions C95_waits.
Print Assumptions C95_goes_on.

(** ** Concrete cases *)
Lemma loaded_check c a ops : 0 <= a -> a + 2 * Z.of_nat (length ops) <= 4096 ->
  map (fun k => 256 * observe c (PMem (a + 2 * Z.of_nat k)) + observe c (PMem (a + 2 * Z.of_nat k + 1))) (seq 0 (length ops)) = map encode ops ->
  loaded c a ops.
Proof.
  intros H1 H2 E. split; [exact H1|]. split; [exact H2|]. intros k op Hk.
  assert (Hlen : (k < length ops)%nat) by (apply nth_error_Some; congruence).
  apply (f_equal (fun l => nth_error l k)) in E. rewrite !nth_error_map, Hk in E.
  rewrite (nth_error_nth' (seq 0 (length ops)) 0%nat) in E by (rewrite seq_length; exact Hlen).
  rewrite seq_nth in E by exact Hlen. cbn [option_map] in E. injection E as E. exact E.
Qed.

Definition add_demo : chip8 := demo [0x70; 0x03; 0x71; 0x01; 0x51; 0x20; 0x12; 0x00] [(V0, 250); (V1, 254); (V2, 2)] 0 None.
Example C93_add_case : well_formed add_demo /\ NoDup [V0; V1; V2; Vf] /\ loaded add_demo 0x200 (add_loop V0 V1 V2 3 0x200) /\
  observe add_demo PPC = 0x200 /\ times (reg add_demo V1) (reg add_demo V2) = 4 /\
  match run env0 Debug add_demo 15 w0 with Ok (s, _) => reg (ss_unwrap s) V0 | Panic => -1 end = 6.
Proof.
  split; [apply demo_wf; vm_compute; reflexivity|]. split; [repeat constructor; cbn; intuition congruence|].
  split; [apply loaded_check; [lia|cbn; lia|vm_compute; reflexivity]|]. repeat split; vm_compute; reflexivity.
Qed.

Definition fill_demo : chip8 := demo [0xF0; 0x55; 0xF1; 0x1E; 0x72; 0xFF; 0x32; 0x00; 0x12; 0x00] [(V0, 77); (V1, 2); (V2, 3)] 0x300 None.
Example C93_fill_case : well_formed fill_demo /\ NoDup [V1; V2; Vf] /\ loaded fill_demo 0x200 (fill_loop V1 V2 0x200) /\
  observe fill_demo PPC = 0x200 /\ observe fill_demo PI = 0x300 /\ reg fill_demo V1 = 2 /\ reg fill_demo V2 = 3 /\
  match run env0 Debug fill_demo 14 w0 with
  | Ok (s, _) => map (fun a => observe (ss_unwrap s) (PMem a)) [0x300; 0x301; 0x302; 0x303; 0x304; 0x305; 0x306]
  | Panic => [] end = [77; 0; 77; 0; 77; 0; 0].
Proof.
  split; [apply demo_wf; vm_compute; reflexivity|]. split; [repeat constructor; cbn; intuition congruence|].
  split; [apply loaded_check; [lia|cbn; lia|vm_compute; reflexivity]|]. repeat split; vm_compute; reflexivity.
Qed.

Definition digits_demo : chip8 := demo [0xF3; 0x33; 0xF2; 0x65] [(V3, 207)] 0x300 None.
Example C94_digits_case : well_formed digits_demo /\ loaded digits_demo 0x200 (digits_program V3) /\
  observe digits_demo PPC = 0x200 /\ observe digits_demo PI = 0x300 /\
  match run env0 Debug digits_demo 2 w0 with Ok (s, _) => map (reg (ss_unwrap s)) [V0; V1; V2] | Panic => [] end = [2; 0; 7].
Proof.
  split; [apply demo_wf; vm_compute; reflexivity|].
  split; [apply loaded_check; [lia|cbn; lia|vm_compute; reflexivity]|]. repeat split; vm_compute; reflexivity.
Qed.

(** Copying the program's own first three bytes over its last ones. *)
Definition copy_demo : chip8 := demo [0xA2; 0x00; 0xF2; 0x65; 0xA2; 0x01; 0xF2; 0x55] [] 0 None.
Example C94_copy_case : well_formed copy_demo /\ loaded copy_demo 0x200 (copy_program V2 0x200 0x201) /\
  observe copy_demo PPC = 0x200 /\
  match run env0 Debug copy_demo 4 w0 with
  | Ok (s, _) => map (fun a => observe (ss_unwrap s) (PMem a)) [0x200; 0x201; 0x202; 0x203; 0x204]
  | Panic => [] end = [0xA2; 0xA2; 0x00; 0xF2; 0xA2].
Proof.
  split; [apply demo_wf; vm_compute; reflexivity|].
  split; [apply loaded_check; [lia|cbn; lia|vm_compute; reflexivity]|]. repeat split; vm_compute; reflexivity.
Qed.

(** A clock that moves on by 0.8 seconds with every reading and a delay of two
    seconds, set at time 0. *)
Definition slow : environment := mkEnv (fun k => 800000000 * Z.of_nat k) (fun _ => 0).
Definition wait_demo : chip8 := set_dt (demo [0xF4; 0x07; 0x34; 0x00; 0x12; 0x00] [] 0 None) (mkClock 0 2).
Lemma set_dt_wf c t n : well_formed c -> u8 n -> well_formed (set_dt c (mkClock t n)).
Proof. intros [] Hn. constructor; assumption. Qed.

Example C95_case : well_formed wait_demo /\ loaded wait_demo 0x200 (wait_loop V4 0x200) /\ observe wait_demo PPC = 0x200 /\
  (forall j, (j < 3)%nat -> ~ run_down (observe wait_demo PDelay) (observe wait_demo PDelayAt) (env_time slow (w_time w0 + j))) /\
  run_down (observe wait_demo PDelay) (observe wait_demo PDelayAt) (env_time slow (w_time w0 + 3)) /\
  match run slow Debug wait_demo 11 w0 with Ok (s, w) => (observe (ss_unwrap s) PPC, w_time w) | Panic => (0, 0%nat) end = (0x206, 4%nat).
Proof.
  assert (W : well_formed (demo [0xF4; 0x07; 0x34; 0x00; 0x12; 0x00] [] 0 None)) by (apply demo_wf; vm_compute; reflexivity).
  split; [apply set_dt_wf; [exact W|unfold u8; lia]|].
  split; [apply loaded_check; [lia|cbn; lia|vm_compute; reflexivity]|].
  split; [vm_compute; reflexivity|]. change (observe wait_demo PDelay) with 2. change (observe wait_demo PDelayAt) with 0.
  unfold run_down. split; [intros j Hj; cbn [env_time slow w_time w0 Nat.add]; lia|].
  split; [right; cbn; lia|]. vm_compute. reflexivity.
Qed.
