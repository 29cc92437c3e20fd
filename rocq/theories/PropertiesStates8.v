(** C123: which states a CHIP-8 machine can be in. *)
From Verif Require Import Base Arith ModelMap ModelStep ModelDisplay ModelChip8 ModelOpsChip8 ModelRunChip8 SpecMap Link6502
  SpecChip8 SpecChip8Parts SpecChip8Run ProofChip8 ProofChip8Parts ProofChip8Step ProofChip8Reach ProofChip8Run PropertiesChip8Run
  SpecRoutines8 SpecReplace8 SpecLanguage8 ProofLanguage8 PropertiesReplace8 SpecStates8.

(** ** Setting one part *)
Definition key_of (v : Z) : option interrupt :=
  match v with
  | 0 => Some (InterruptKeyPress Key0) | 1 => Some (InterruptKeyPress Key1) | 2 => Some (InterruptKeyPress Key2) | 3 => Some (InterruptKeyPress Key3)
  | 4 => Some (InterruptKeyPress Key4) | 5 => Some (InterruptKeyPress Key5) | 6 => Some (InterruptKeyPress Key6) | 7 => Some (InterruptKeyPress Key7)
  | 8 => Some (InterruptKeyPress Key8) | 9 => Some (InterruptKeyPress Key9) | 10 => Some (InterruptKeyPress KeyA) | 11 => Some (InterruptKeyPress KeyB)
  | 12 => Some (InterruptKeyPress KeyC) | 13 => Some (InterruptKeyPress KeyD) | 14 => Some (InterruptKeyPress KeyE) | 15 => Some (InterruptKeyPress KeyF)
  | _ => None
  end.
Lemma key_of_number v : -1 <= v < 16 -> key_number (key_of v) = v.
Proof.
  intros H. assert (E : In v [-1; 0; 1; 2; 3; 4; 5; 6; 7; 8; 9; 10; 11; 12; 13; 14; 15]) by (cbn [In]; lia).
  cbn [In] in E. repeat (destruct E as [<-|E]; [reflexivity|]). destruct E.
Qed.
Definition reg_of (x : Z) : gp_register :=
  match x with
  | 0 => V0 | 1 => V1 | 2 => V2 | 3 => V3 | 4 => V4 | 5 => V5 | 6 => V6 | 7 => V7
  | 8 => V8 | 9 => V9 | 10 => Va | 11 => Vb | 12 => Vc | 13 => Vd | 14 => Ve | _ => Vf
  end.
Lemma reg_of_index x : 0 <= x < 15 -> gp_index (reg_of x) = x.
Proof.
  intros H. assert (E : In x [0; 1; 2; 3; 4; 5; 6; 7; 8; 9; 10; 11; 12; 13; 14]) by (cbn [In]; lia).
  cbn [In] in E. repeat (destruct E as [<-|E]; [reflexivity|]). destruct E.
Qed.

Section Set_part.
Context (e : environment) (p : profile) (He : env_ok e).
Lemma reach_sp c k : reachable e p c -> 0 <= k < 16 -> exists c', reachable e p c' /\ looks c' (upd (observe c) PSP k).
Proof.
  intros R Hk. exists (with_sp_register c (sp_with_value k)). split; [apply reachable_sp; [exact R|unfold u8; lia]|].
  intros q. destruct q; try reflexivity. cbn. unfold sp_with_value, value_to_sp. lia.
Qed.
Lemma reach_part c q v : reachable e p c -> part_of_machine q -> can_hold q v -> exists c', reachable e p c' /\ looks c' (upd (observe c) q v).
Proof.
  intros R Hq Hv. pose proof (C56_reachable e p c He R) as W. destruct q as [| | |x|k|a|x y| | | | |]; cbn [part_of_machine can_hold] in Hq, Hv.
  - exists (with_pc_register c v). split; [apply reachable_pc; [exact R|exact Hv]|]. intros q. destruct q; reflexivity.
  - exists (with_i_register c v). split; [apply reachable_i; [exact R|exact Hv]|]. intros q. destruct q; reflexivity.
  - exact (reach_sp c v R Hv).
  - destruct (ex_gp c x v W Hq Hv) as (gp & E & _ & Lk). exists (set_gp c gp). split; [|exact Lk].
    apply (reachable_gp e p c (reg_of x) v); [exact R|exact Hv|]. unfold with_gp_register. rewrite reg_of_index by exact Hq. rewrite E. reflexivity.
  - destruct (reach_sp c k R Hq) as (c1 & R1 & L1). pose proof (C56_reachable e p c1 He R1) as W1.
    destruct (ex_push c1 v W1 Hv) as (c2 & E2 & (W2 & L2) & _).
    assert (R2 : reachable e p c2) by (apply (reachable_microcode e p c1 w0 (PushStack v) c2 w0 R1 Hv); cbn [execute_mut]; rewrite E2; reflexivity).
    destruct (reach_sp c2 (observe c PSP) R2 (wf_sp c W)) as (c3 & R3 & L3). exists c3. split; [exact R3|].
    assert (Ek : observe c1 PSP = k) by (rewrite L1; unfold upd; reflexivity).
    intros q. rewrite L3. unfold upd. destruct q; cbn [part_eqb]; try reflexivity; rewrite L2; unfold upd; cbn [part_eqb]; rewrite ?L1, ?Ek; unfold upd; cbn [part_eqb]; reflexivity.
  - destruct (ex_mem p c a v W ltac:(lia) Hv) as (c1 & E & (_ & Lk) & _). exists c1. split; [|exact Lk].
    apply (reachable_microcode e p c w0 (WriteMemory a v) c1 w0 R); [split; [unfold u16; lia|exact Hv]|]. cbn [execute_mut]. rewrite E. reflexivity.
  - destruct (write_pixel_spec (c8_display c) x y (v =? 1) (wf_display c W) ltac:(lia) ltac:(lia)) as (d & E & D & S).
    exists (set_display c d). split.
    + apply (reachable_microcode e p c w0 (SetDisplayPixel (x, y) (v =? 1)) (set_display c d) w0 R); [cbn; lia|]. cbn [execute_mut]. rewrite E. reflexivity.
    + intros q. destruct q as [| | |x'|k'|a'|x' y'| | | | |]; try reflexivity. unfold upd. cbn [part_eqb observe set_display c8_display].
      rewrite S. unfold painted. replace (on_screen x y) with true by (unfold on_screen; lia). rewrite andb_true_r, (Z.eqb_sym x' x), (Z.eqb_sym y' y).
      destruct ((x =? x') && (y =? y')); [|reflexivity]. destruct Hv as [->| ->]; reflexivity.
  - exists (with_interrupt c (key_of v)). split; [apply reachable_interrupt; exact R|]. intros q. destruct q; try reflexivity. cbn. apply key_of_number. exact Hv.
  - exists (with_timer_register c Delay (mkClock (written_at (c8_dt c)) v)). split; [apply reachable_timer; [exact R|exact Hv]|]. intros q. destruct q; reflexivity.
  - exists (with_timer_register c Delay (mkClock v (clock_inner (c8_dt c)))). split; [apply reachable_timer; [exact R|exact (wf_dt c W)]|]. intros q. destruct q; reflexivity.
  - exists (with_timer_register c Sound (mkClock (written_at (c8_st c)) v)). split; [apply reachable_timer; [exact R|exact Hv]|]. intros q. destruct q; reflexivity.
  - exists (with_timer_register c Sound (mkClock v (clock_inner (c8_st c)))). split; [apply reachable_timer; [exact R|exact (wf_st c W)]|]. intros q. destruct q; reflexivity.
Qed.
Lemma reach_parts f l : Forall (fun q => part_of_machine q /\ can_hold q (f q)) l -> forall c, reachable e p c ->
  exists c', reachable e p c' /\ forall q, In q l -> observe c' q = f q.
Proof.
  intros F. induction l as [|q l IH]; intros c R.
  - exists c. split; [exact R|intros q []].
  - inversion F as [|? ? [Hq Hv] F']; subst. destruct (IH F' c R) as (c1 & R1 & L1). destruct (reach_part c1 q (f q) R1 Hq Hv) as (c2 & R2 & L2).
    exists c2. split; [exact R2|]. intros q' Hi. rewrite L2. unfold upd. destruct (part_eqb q q') eqn:E; [apply part_eqb_eq in E as <-; reflexivity|].
    destruct Hi as [<-|Hi]; [rewrite part_eqb_refl in E; discriminate E|exact (L1 q' Hi)].
Qed.
End Set_part.

Definition upto (n : nat) : list Z := map Z.of_nat (seq 0 n).
Lemma upto_in n x : In x (upto n) <-> 0 <= x < Z.of_nat n.
Proof.
  unfold upto. rewrite in_map_iff. split; [intros (k & <- & H); apply in_seq in H; lia|]. intros H. exists (Z.to_nat x). split; [lia|]. apply in_seq. lia.
Qed.
Definition all_parts : list part :=
  [PPC; PI; PSP; PKey; PDelay; PDelayAt; PSound; PSoundAt] ++ map PV (upto 15) ++ map PStack (upto 16) ++ map PMem (upto (Z.to_nat 4096)) ++
  flat_map (fun y => map (fun x => PPixel x y) (upto 64)) (upto 32).
Lemma all_parts_in q : In q all_parts <-> part_of_machine q.
Proof.
  unfold all_parts. rewrite !in_app_iff, !in_map_iff, in_flat_map. split.
  - intros [H|[(x & <- & H)|[(x & <- & H)|[(x & <- & H)|(y & Hy & H)]]]].
    + cbn [In] in H. repeat (destruct H as [<-|H]; [exact I|]). destruct H.
    + apply upto_in in H. cbn [part_of_machine]. lia.
    + apply upto_in in H. cbn [part_of_machine]. lia.
    + apply upto_in in H. rewrite Z2Nat.id in H by lia. exact H.
    + apply in_map_iff in H as (x & <- & H). apply upto_in in H, Hy. cbn [part_of_machine]. lia.
  - destruct q as [| | |x|k|a|x y| | | | |]; cbn [part_of_machine]; intros H; try (left; cbn; tauto); right.
    + left. exists x. split; [reflexivity|]. apply upto_in. lia.
    + right. left. exists k. split; [reflexivity|]. apply upto_in. lia.
    + right. right. left. exists a. split; [reflexivity|]. apply upto_in. rewrite Z2Nat.id by lia. exact H.
    + right. right. right. exists y. split; [apply upto_in; lia|]. apply in_map_iff. exists x. split; [reflexivity|]. apply upto_in. lia.
Qed.

Lemma wf_state c : well_formed c -> machine_state (observe c).
Proof.
  intros W q Hq. destruct q as [| | |x|k|a|x y| | | | |]; cbn [part_of_machine can_hold] in *.
  - exact (wf_pc c W).
  - exact (wf_i c W).
  - exact (wf_sp c W).
  - exact (observe_v_u8 c x W Hq).
  - exact (observe_stack_u16 c k W Hq).
  - exact (observe_mem_u8 c a W).
  - cbn [observe]. destruct (lit _ _ _); [right|left]; reflexivity.
  - exact (key_range c).
  - exact (wf_dt c W).
  - exact I.
  - exact (wf_st c W).
  - exact I.
Qed.
Lemma translate_ok prog : forall L, good8 prog -> 0 <= L -> L + bytes (translate L prog) < 4096 -> Forall operands_ok (translate L prog).
Proof.
  induction prog as [|op|c1 IH1 c2 IH2|b c1 IH1 c2 IH2|b c IH]; intros L G H0 H1; cbn [translate good8] in *; cbv zeta in *.
  - constructor.
  - constructor; [exact (proj1 G)|constructor].
  - destruct G as [G1 G2]. rewrite bytes_app in H1. pose proof (bytes_nonneg (translate L c1)). pose proof (bytes_nonneg (translate (L + bytes (translate L c1)) c2)).
    apply Forall_app. split; [apply IH1; [exact G1|exact H0|lia]|apply IH2; [exact G2|lia|lia]].
  - destruct G as (Gb & G1 & G2). rewrite !bytes_app in H1. change (bytes [_; _]) with 4 in H1. change (bytes [_]) with 2 in H1.
    set (l1 := translate (L + 4) c1) in *. set (l2 := translate (L + 4 + bytes l1 + 2) c2) in *. pose proof (bytes_nonneg l1). pose proof (bytes_nonneg l2).
    destruct (skip_effect env0 Debug (fun _ => 0) w0 b Gb) as [_ Ob].
    constructor; [exact Ob|]. constructor; [cbn [operands_ok]; lia|]. apply Forall_app. split; [apply IH1; [exact G1|lia|fold l1; lia]|].
    constructor; [cbn [operands_ok]; lia|]. apply IH2; [exact G2|lia|fold l2; lia].
  - destruct G as (Gb & G1). rewrite !bytes_app in H1. change (bytes [_; _]) with 4 in H1. change (bytes [_]) with 2 in H1.
    set (l1 := translate (L + 4) c) in *. pose proof (bytes_nonneg l1). destruct (skip_effect env0 Debug (fun _ => 0) w0 b Gb) as [_ Ob].
    constructor; [exact Ob|]. constructor; [cbn [operands_ok]; lia|]. apply Forall_app. split; [apply IH; [exact G1|lia|fold l1; lia]|]. constructor; [cbn [operands_ok]; lia|constructor].
Qed.

(** ** C123 *)
(** Every machine the crate makes has a value of its range in every part. *)
Theorem C123_ranges : forall e p c, env_ok e -> reachable e p c -> machine_state (observe c).
Proof. intros e p c He R. exact (wf_state c (C56_reachable e p c He R)). Qed.
(** Outside of these parts there is nothing: memory above 0xfff reads as 0. *)
Theorem C123_nothing_else : forall e p c q, env_ok e -> reachable e p c -> ~ part_of_machine q -> (forall a, q = PMem a -> 0 <= a) -> observe c q = 0.
Proof.
  intros e p c q He R Hq Ha. pose proof (C56_reachable e p c He R) as W. destruct q as [| | |x|k|a|x y| | | | |]; cbn [part_of_machine] in Hq; try (destruct (Hq I)).
  - cbn [observe]. destruct (wf_gp c W) as (L & _). unfold item. destruct (x <? 0) eqn:E; [reflexivity|]. apply nth_overflow. lia.
  - cbn [observe]. destruct (wf_stack c W) as (_ & L & _). unfold item. destruct (k <? 0) eqn:E; [reflexivity|]. apply nth_overflow. lia.
  - specialize (Ha a eq_refl). apply observe_mem_out; [exact W|lia].
  - cbn [observe]. destruct (wf_display c W) as (L & F). replace (lit (c8_display c) x y) with false; [reflexivity|]. symmetry. unfold lit, item.
    destruct (x <? 0) eqn:E1; [reflexivity|]. destruct (y <? 0) eqn:E2; [destruct (Z.to_nat x); reflexivity|].
    destruct (Nat.lt_ge_cases (Z.to_nat y) (length (c8_display c))) as [Hy|Hy]; [|rewrite (nth_overflow _ _ Hy); destruct (Z.to_nat x); reflexivity].
    apply nth_overflow. rewrite Forall_forall in F. rewrite (F _ (nth_In _ [] Hy)). lia.
Qed.
(** And every such choice of values is the state of a machine the crate makes.
    So the theorems about all well-formed machines speak about the reachable
    ones, all of them, and no others. *)
Theorem C123_every_state : forall e p f, env_ok e -> machine_state f -> exists c, reachable e p c /\ forall q, part_of_machine q -> observe c q = f q.
Proof.
  intros e p f He M. assert (D : exists c w', chip8_default e p w0 = Ok (c, w')) by (destruct p; do 2 eexists; reflexivity). destruct D as (c & w' & D).
  destruct (reach_parts e p He f all_parts) with (c := c) as (c' & R & L).
  - apply Forall_forall. intros q Hq. apply all_parts_in in Hq. split; [exact Hq|exact (M q Hq)].
  - exact (reachable_default e p w0 c w' D).
  - exists c'. split; [exact R|]. intros q Hq. apply L, all_parts_in, Hq.
Qed.
(** In particular every program can lie in memory: for every program of the
    language of C112 that fits there is a machine about to run it, with any
    values in the other parts. *)
Theorem C123_programs : forall e p f L prog, env_ok e -> machine_state f -> good8 prog -> 0 <= L -> L + bytes (translate L prog) < 4096 ->
  exists c, reachable e p c /\ about_to_run8 c L prog /\
    forall q, part_of_machine q -> q <> PPC -> (forall a, q = PMem a -> ~ L <= a < L + bytes (translate L prog)) -> observe c q = f q.
Proof.
  intros e p f L prog He M G H0 H1. pose proof (bytes_nonneg (translate L prog)) as Nb.
  destruct (C123_every_state e p (upd f PPC L) He) as (c & R & Lk).
  { intros q Hq. unfold upd. destruct (part_eqb PPC q) eqn:E; [apply part_eqb_eq in E as <-; cbn; lia|exact (M q Hq)]. }
  destruct (put_instructions (translate L prog) c L (C56_reachable e p c He R) H0 ltac:(unfold bytes in H1; lia) (translate_ok prog L G H0 H1)) as (c2 & W2 & L2 & Ag).
  destruct (C123_every_state e p (observe c2) He (wf_state c2 W2)) as (c3 & R3 & Lk3).
  exists c3. split; [exact R3|]. split.
  - split; [exact (C56_reachable e p c3 He R3)|]. split; [rewrite (Lk3 PPC I), Ag by (intros []); rewrite (Lk PPC I); reflexivity|]. split; [|split; [exact H1|exact G]].
    destruct L2 as (A1 & A2 & A3). split; [exact A1|]. split; [exact A2|]. intros k op Hk. rewrite <- (A3 k op Hk).
    assert (Hl : (k < length (translate L prog))%nat) by (apply nth_error_Some; congruence). rewrite !Lk3 by (cbn [part_of_machine]; lia). reflexivity.
  - intros q Hq Hp Hm. rewrite (Lk3 q Hq), Ag.
    + rewrite (Lk q Hq). unfold upd. destruct (part_eqb PPC q) eqn:E; [apply part_eqb_eq in E; congruence|reflexivity].
    + intros Hi. destruct q as [| | |x|k|a|x y| | | | |]; cbn [in_piece] in Hi; try contradiction. apply (Hm a eq_refl). unfold bytes. lia.
Qed.

(** ** A concrete state: everything at its largest value *)
Definition full : part -> Z := fun q =>
  match q with PPC | PI | PStack _ => 0xffff | PSP => 15 | PPixel _ _ => 1 | PKey => 15 | PDelayAt | PSoundAt => 7 | _ => 0xff end.
Example C123_case : machine_state full /\ exists c, reachable env0 Debug c /\ observe c (PMem 0xfff) = 0xff /\ observe c (PPixel 63 31) = 1 /\ observe c (PStack 15) = 0xffff.
Proof.
  assert (M : machine_state full) by (intros q Hq; destruct q; cbn; lia). split; [exact M|].
  destruct (C123_every_state env0 Debug full env0_ok M) as (c & R & L). exists c. split; [exact R|]. split; [|split]; apply L; cbn; lia.
Qed.
Example C123_programs_case : exists c, reachable env0 Debug c /\ about_to_run8 c 0x200 (Loop (Released V1) Nothing) /\ observe c (PV 1) = 0xff.
Proof.
  destruct (C123_programs env0 Debug full 0x200 (Loop (Released V1) Nothing) env0_ok (proj1 C123_case)) as (c & R & A & L); [repeat split; discriminate|lia|reflexivity|].
  exists c. split; [exact R|]. split; [exact A|]. apply L; [cbn; lia|discriminate|discriminate].
Qed.

Print Assumptions C123_ranges.
Print Assumptions C123_nothing_else.
Print Assumptions C123_every_state.
Print Assumptions C123_programs.
